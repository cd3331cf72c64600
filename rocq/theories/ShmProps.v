(** C31: shared buffers. *)
From Coq Require Import String.
From Verif Require Import Base ShmModel.
Local Open Scope Z_scope.

(** Arguments are of their types and the size is an admissible file size.  A manager is constructed under a new name, or
    successfully on an object that no manager uses. *)
Definition sane (ops : list mop) : Prop := forall a n size bs rem b, ops = a ++ MCreate n size bs rem :: b ->
  0 <= size < 2 ^ 63 - header_size /\ 0 <= bs < 2 ^ 64 /\
  forall s ms i, mrun a (s, ms) -> s_names s n = Some i -> 0 < bs <= size /\ forall m, In m ms -> g_obj m <> i.

(** Byte ranges [a, a + n) and [b, b + n). *)
Definition disjoint (a b n : Z) : Prop := a + n <= b \/ b + n <= a.

Record good (s : shm) (ms : list mgr) : Prop := Good {
  q_names : forall n i, s_names s n = Some i -> (i < s_next s)%nat;
  q_mgrs : forall m, In m ms -> (g_obj m < s_next s)%nat /\ header_size <= g_region m /\ ob_size (s_objs s (g_obj m)) = g_region m;
  q_objs : forall i, let o := s_objs s i in 0 <= ob_bs o /\ 0 <= ob_num o /\ (ob_size o = 0 /\ ob_num o = 0 \/ header_size + ob_num o * ob_bs o <= ob_size o < 2 ^ 63) }.

Lemma run_good ops st : mrun ops st -> sane ops -> good (fst st) (snd st).
Proof.
  assert (SI : forall a b : shm * list mgr, Some a = Some b -> b = a) by congruence.
  induction 1 as [|ops st o st' R IH S]; intros SA; [constructor; cbn; try discriminate; try tauto; lia|].
  assert (SA' : sane ops). { intros a n size bs rem b E. apply (SA a n size bs rem (b ++ [o])). rewrite E, <- app_assoc. reflexivity. }
  specialize (IH SA'). destruct st as [s ms]. cbn [fst snd] in *. destruct IH as [QN QM QO]. destruct o as [n size bs rem|n|j]; cbn [mstep] in S.
  - destruct (SA ops n size bs rem [] eq_refl) as (B1 & B2 & FR). specialize (FR s ms).
    assert (OC : exists s1 i, open_or_create n s = (s1, i) /\ (forall m j, s_names s1 m = Some j -> (j < s_next s1)%nat) /\ (i < s_next s1)%nat /\ (s_next s <= s_next s1)%nat /\
       (forall j, j <> i -> s_objs s1 j = s_objs s j) /\ (forall m, In m ms -> g_obj m <> i) /\
       (s_objs s1 i = Obj 0 0 0 0 \/ s_objs s1 i = s_objs s i /\ 0 < bs <= size)).
    { unfold open_or_create. destruct (s_names s n) as [i|] eqn:E.
      - exists s, i. destruct (FR i R eq_refl) as (F1 & F2). split; [reflexivity|]. split; [exact QN|]. split; [eapply QN, E|]. auto 10.
      - eexists _, _. split; [reflexivity|]. cbn. split.
        + intros m j. destruct (String.eqb m n); [intros [= <-]; lia|]. intros H. apply QN in H. lia.
        + split; [lia|]. split; [lia|]. split; [intros j Hj; destruct (Nat.eqb_spec j (s_next s)); [contradiction|reflexivity]|]. split.
          * intros m Hm. destruct (QM m Hm). lia.
          * left. rewrite Nat.eqb_refl. reflexivity. }
    destruct OC as (s1 & i & E & A1 & A2 & A2' & A3 & A4 & A5). unfold create in S. rewrite E in S.
    assert (G1 : good s1 ms).
    { constructor; [exact A1| |].
      - intros m Hm. destruct (QM m Hm) as (X1 & X2 & X3). rewrite A3 by (apply A4, Hm). split; [lia|auto].
      - intros j. destruct (Nat.eq_dec j i) as [->|N]; [|rewrite A3 by exact N; apply QO]. destruct A5 as [->|(-> & _)]; [cbn; lia|apply QO]. }
    destruct (Z.eqb_spec bs 0); [injection S as <-; exact G1|]. set (len := wrap64 (header_size + size)) in *.
    assert (L : len = header_size + size). { unfold len, wrap64. apply Z.mod_small. unfold header_size in *. lia. } clearbody len. subst len. unfold header_size in *.
    destruct (Z.leb_spec (2 ^ 63) (24 + size)); [lia|]. destruct (Z.eqb_spec (24 + size) 0); [lia|].
    assert (UPD : forall o t, 0 <= ob_bs o -> 0 <= ob_num o -> 24 + ob_num o * ob_bs o <= ob_size o < 2 ^ 63 -> s_names t = s_names s1 -> s_next t = s_next s1 -> s_objs t = (fun j => if Nat.eqb j i then o else s_objs s1 j) -> good t ms).
    { intros o t O1 O2 O3 T1 T2 T3. destruct G1 as [X Y Z]. constructor; rewrite ?T1, ?T2, ?T3; [exact X| |].
      - intros m Hm. destruct (Nat.eqb_spec (g_obj m) i) as [F|_]; [exfalso; exact (A4 m Hm F)|apply Y, Hm].
      - intros j. destruct (Nat.eqb_spec j i); [cbn zeta; unfold header_size; auto|apply Z]. }
    assert (P : 0 < bs) by lia. pose proof (Z.div_mod size bs ltac:(lia)) as DM. pose proof (Z.mod_pos_bound size bs P) as MB. set (q := size / bs) in *.
    assert (Q0 : 0 <= q) by (apply Z.div_pos; lia).
    destruct (Z.eqb_spec q 0) as [Q|Q].
    + apply SI in S. subst st'. cbn [fst snd]. assert (NB : size < bs) by (rewrite Q in DM; lia). destruct A5 as [A5|(_ & A5)]; [|lia].
      eapply UPD; cbn [set_obj s_names s_next s_objs]; try reflexivity; rewrite A5; cbn [ob_bs ob_num ob_size ob_id]. all: lia.
    + destruct (Z.ltb_spec (24 + size) 24); [lia|]. apply SI in S. subst st'. cbn [fst snd].
      assert (G : good (Shm (s_names s1) (fun j => if Nat.eqb j i then Obj (24 + size) (s_lastid s1) q bs else if Nat.eqb j i then Obj (24 + size) (ob_id (s_objs s1 i)) (ob_num (s_objs s1 i)) (ob_bs (s_objs s1 i)) else s_objs s1 j) (s_next s1) (wrap64 (s_lastid s1 + 1))) ms).
      { destruct G1 as [X Y Z]. constructor; cbn [s_names s_objs s_next]; [exact X| |].
        - intros m Hm. destruct (Nat.eqb_spec (g_obj m) i) as [F|_]; [exfalso; exact (A4 m Hm F)|apply Y, Hm].
        - intros j. destruct (Nat.eqb_spec j i); [|apply Z]. cbn [ob_bs ob_num ob_size]. cbn zeta. unfold header_size. assert (q * bs <= size) by (clearbody q; lia). lia. }
      destruct G as [X Y Z]. constructor; [exact X| |exact Z]. intros m Hm. apply in_app_or in Hm as [Hm|[<-|[]]]; [apply Y, Hm|]. cbn [g_obj g_region s_objs s_next set_obj]. rewrite Nat.eqb_refl. unfold header_size. cbn [ob_size]. lia.
  - unfold attach in S. destruct (s_names s n) as [i|] eqn:E; [|injection S as <-; constructor; auto]. destruct (Z.eqb_spec (ob_size (s_objs s i)) 0); injection S as <-; constructor; cbn [fst snd]; auto.
    intros m Hm. apply in_app_or in Hm as [Hm|[<-|[]]]; [apply QM, Hm|]. cbn. split; [eapply QN, E|]. split; [|reflexivity]. destruct (QO i) as (O1 & O2 & [O3|O3]); [lia|].
    assert (0 <= ob_num (s_objs s i) * ob_bs (s_objs s i)) by (apply Z.mul_nonneg_nonneg; assumption). lia.
  - destruct (nth_error ms j) as [m|] eqn:E; injection S as <-; [|constructor; auto]. cbn [fst snd].
    assert (M : forall x, In x (without j ms) -> In x ms). { intros x Hx. unfold without in Hx. apply in_app_or in Hx as [Hx|Hx]; [rewrite <- (firstn_skipn j ms)|rewrite <- (firstn_skipn (S j) ms)]; apply in_or_app; auto. }
    unfold destroy. destruct (g_remove m); constructor; cbn; auto.
    intros k i. destruct (String.eqb k (g_name m)); [discriminate|apply QN].
Qed.

(** Every manager that exists, at every time: the buffers it counts lie after the header, inside what it has mapped and inside the
    object, and do not overlap; other numbers are refused. *)
Theorem c31_buffers_partial : forall ops s ms m, mrun ops (s, ms) -> sane ops -> In m ms ->
  exists num bs, num_bufs m s = Ret num /\ buf_size m s = Ret bs /\
  forall b, 0 <= b < 2 ^ 32 ->
    (num <= b /\ address m b s = Throw EIndex \/
     b < num /\ exists a, address m b s = Ret a /\ header_size <= a /\ a + bs <= g_region m /\ a + bs <= ob_size (s_objs s (g_obj m)) /\
       forall b' a', 0 <= b' < 2 ^ 32 -> b' <> b -> address m b' s = Ret a' -> disjoint a a' bs).
Proof.
  intros ops s ms m R SA IM. destruct (run_good ops (s, ms) R SA) as [_ QM QO]. cbn [fst snd] in *. destruct (QM m IM) as (_ & H1 & H2). specialize (QO (g_obj m)). cbn zeta in QO.
  unfold num_bufs, buf_size, address. destruct (Z.ltb_spec (g_region m) header_size); [lia|]. set (o := s_objs s (g_obj m)) in *. destruct QO as (O1 & O2 & O3).
  exists (ob_num o), (ob_bs o). split; [reflexivity|]. split; [reflexivity|]. destruct O3 as [O3|O3]; [unfold header_size in *; lia|].
  assert (MUL : forall b, 0 <= b < ob_num o -> 0 <= b * ob_bs o /\ b * ob_bs o + ob_bs o <= ob_num o * ob_bs o /\ wrap64 (b * ob_bs o) = b * ob_bs o).
  { intros b Hb. assert (M1 : 0 <= b * ob_bs o) by (apply Z.mul_nonneg_nonneg; lia). assert (M2 : (b + 1) * ob_bs o <= ob_num o * ob_bs o) by (apply Z.mul_le_mono_nonneg_r; lia).
    assert (M3 : b * ob_bs o + ob_bs o <= ob_num o * ob_bs o) by lia. split; [exact M1|]. split; [exact M3|]. unfold wrap64. apply Z.mod_small. unfold header_size in *. lia. }
  intros b Hb. destruct (Z.leb_spec (ob_num o) b); [left; auto|]. right. split; [assumption|]. destruct (MUL b ltac:(lia)) as (M1 & M2 & M3). rewrite M3. eexists. split; [reflexivity|].
  split; [lia|]. split; [lia|]. split; [lia|]. intros b' a' Hb' NE. destruct (Z.leb_spec (ob_num o) b'); [discriminate|]. destruct (MUL b' ltac:(lia)) as (_ & _ & M3'). rewrite M3'. intros EA. assert (a' = header_size + b' * ob_bs o) by congruence. subst a'.
  unfold disjoint. destruct (Z.lt_ge_cases b b').
  - left. assert ((b + 1) * ob_bs o <= b' * ob_bs o) by (apply Z.mul_le_mono_nonneg_r; lia). lia.
  - right. assert ((b' + 1) * ob_bs o <= b * ob_bs o) by (apply Z.mul_le_mono_nonneg_r; lia). lia.
Qed.

(** What the constructor promises: as many buffers of the requested size as fit. *)
Theorem c31_count : forall n size bs rem s s' m, 0 <= size < 2 ^ 63 - header_size -> create n size bs rem s = (s', Ret m) ->
  num_bufs m s' = Ret (size / bs) /\ buf_size m s' = Ret bs /\ g_region m = header_size + size.
Proof.
  intros n size bs rem s s' m B. unfold create. destruct (open_or_create n s) as [s1 i]. destruct (bs =? 0); [discriminate|]. set (len := wrap64 _).
  assert (L : len = header_size + size). { unfold len, wrap64. apply Z.mod_small. unfold header_size in *. lia. } clearbody len. subst len.
  destruct (_ <=? _); [discriminate|]. destruct (_ =? 0); [discriminate|]. destruct (_ =? 0); [discriminate|]. destruct (Z.ltb_spec (header_size + size) header_size); [discriminate|].
  intros E. apply pair_equal_spec in E as (<- & E). assert (M : m = Mgr n i (header_size + size) rem) by congruence. subst m. clear E. unfold num_bufs, buf_size. cbn [g_region g_obj].
  destruct (Z.ltb_spec (header_size + size) header_size); [lia|]. cbn [s_objs set_obj]. rewrite Nat.eqb_refl. auto.
Qed.
(** Managers of the same object find each buffer at the same place. *)
Theorem c31_same_place : forall s m m' b a a', g_obj m = g_obj m' -> address m b s = Ret a -> address m' b s = Ret a' -> a = a'.
Proof.
  intros s m m' b a a' E. unfold address. rewrite E. destruct (_ <? _); [discriminate|]. destruct (_ <? _); [intros _; discriminate|]. destruct (_ <=? _); [discriminate|]. congruence.
Qed.

(** Receiver creates, processor attaches. *)
Definition ops_ok : list mop := [MCreate "odin" 100 30 true; MAttach "odin"].
Fixpoint mgo (l : list mop) (st : shm * list mgr) : option (shm * list mgr) :=
  match l with [] => Some st | o :: t => match mstep o st with Some st' => mgo t st' | None => None end end.
Lemma mgo_run l : forall pre st st', mrun pre st -> mgo l st = Some st' -> mrun (pre ++ l) st'.
Proof.
  induction l as [|o l IH]; intros pre st st' R H; cbn [mgo] in H; [injection H as <-; rewrite app_nil_r; exact R|].
  destruct (mstep o st) as [st1|] eqn:E; [|discriminate]. change (o :: l) with ([o] ++ l). rewrite app_assoc. eapply IH; [|exact H]. econstructor; eassumption.
Qed.
Lemma run_det a : forall st st', mrun a st -> mrun a st' -> st = st'.
Proof.
  induction a as [|o a IH] using rev_ind; intros st st' H H'.
  - inversion H as [|ops st0 o0 ? R S E]; [|destruct ops; discriminate]. inversion H' as [|ops' st0' o0' ? R' S' E']; [reflexivity|destruct ops'; discriminate].
  - inversion H as [E|ops st0 o0 ? R S E]; [destruct a; discriminate|]. apply app_inj_tail in E as (-> & ->). inversion H' as [E|ops st0' o0' ? R' S' E]; [destruct a; discriminate|]. apply app_inj_tail in E as (-> & ->).
    rewrite (IH _ _ R R') in S. congruence.
Qed.
Definition mafter (l : list mop) : shm * list mgr := match mgo l (shm_init, []) with Some st => st | None => (shm_init, []) end.
Lemma mafter_run l : match mgo l (shm_init, []) with Some _ => True | None => False end -> mrun l (mafter l).
Proof. unfold mafter. destruct (mgo l _) as [st|] eqn:E; [|tauto]. intros _. change l with ([] ++ l). eapply mgo_run; [constructor|exact E]. Qed.
Example c31_case : mrun ops_ok (mafter ops_ok) /\ sane ops_ok /\
  map (fun m => (g_region m, map (fun b => address m b (fst (mafter ops_ok))) [0; 2; 3])) (snd (mafter ops_ok)) = [(124, [Ret 24; Ret 84; Throw EIndex]); (124, [Ret 24; Ret 84; Throw EIndex])].
Proof.
  split; [apply mafter_run; vm_compute; exact I|]. split; [|vm_compute; reflexivity].
  intros a n size bs rem b E. destruct a as [|o a].
  - injection E as <- <- <- <- <-. split; [unfold header_size; lia|]. split; [lia|]. intros s ms i R. pose proof (run_det _ _ _ mr_init R) as X. injection X as <- <-. discriminate.
  - injection E as <- E. destruct a as [|? [|? ?]]; discriminate.
Qed.

(** A second manager created under the same name while the first is in use: the first finds buffers beyond what it has mapped. *)
Theorem c31_same_name_refuted : let st := mafter [MCreate "odin" 100 30 true; MCreate "odin" 1000 30 true] in
  mrun [MCreate "odin" 100 30 true; MCreate "odin" 1000 30 true] st /\
  map (fun m => (g_region m, address m 20 (fst st))) (snd st) = [(124, Ret 624); (1024, Ret 624)].
Proof. split; [apply mafter_run; vm_compute; exact I|vm_compute; reflexivity]. Qed.
(** A failed construction on an object that stayed behind: it is made smaller but keeps its old header; who attaches to it
    is given addresses outside. *)
Definition stale : list mop := [MCreate "odin" 100 30 false; MDestroy 0; MCreate "odin" 10 30 false; MAttach "odin"].
Theorem c31_stale_header_refuted : let st := mafter stale in mrun stale st /\ map (fun m => (g_region m, address m 2 (fst st))) (snd st) = [(34, Ret 84)].
Proof. split; [apply mafter_run; vm_compute; exact I|vm_compute; reflexivity]. Qed.
(** A size near 2^64 wraps around: the region has no room even for the header. *)
Theorem c31_overflow_refuted : snd (create "odin" (2 ^ 64 - 1) 30 true shm_init) = Undef.
Proof. vm_compute. reflexivity. Qed.

(** A manager that only attached leaves the shared memory as it is when it goes; one that created it removes the name if asked to, and nothing else. *)
Theorem c31_destroy n size bs rem s0 s1 m s :
  (attach n s0 = Ret m -> destroy m s = s) /\
  (create n size bs rem s0 = (s1, Ret m) -> s_objs (destroy m s) = s_objs s /\ (forall k, k <> n -> s_names (destroy m s) k = s_names s k) /\ s_names (destroy m s) n = if rem then None else s_names s n).
Proof.
  split; intros H.
  - unfold attach in H. destruct (s_names s0 n); [|discriminate]. destruct (_ =? 0); [discriminate|]. injection H as <-. reflexivity.
  - assert (E : g_name m = n /\ g_remove m = rem).
    { unfold create in H. destruct (open_or_create n s0) as [s2 i]. destruct (bs =? 0); [discriminate|]. destruct (_ <=? _); [discriminate|]. destruct (_ =? 0); [discriminate|]. destruct (size / bs =? 0); [discriminate|]. destruct (_ <? _); [discriminate|].
      apply pair_equal_spec in H as (_ & H). injection H as <-. split; reflexivity. }
    destruct E as (<- & <-). unfold destroy. destruct (g_remove m); cbn; [|auto]. split; [reflexivity|]. split; [|rewrite String.eqb_refl; reflexivity].
    intros k K. destruct (String.eqb_spec k (g_name m)); [contradiction|reflexivity].
Qed.

Print Assumptions c31_buffers_partial.
Print Assumptions c31_count.
Print Assumptions c31_same_place.
Print Assumptions c31_same_name_refuted.
Print Assumptions c31_stale_header_refuted.
Print Assumptions c31_overflow_refuted.
Print Assumptions c31_destroy.
