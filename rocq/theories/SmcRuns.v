(** Invariants of runs of the shared memory controller. *)
From Coq Require Import String Ascii Permutation.
From Verif Require Import Base StrOrder JsonModel JsonReadModel JsonDoubleModel JsonSpec JsonProofs JsonRoundSpec JsonReadSpec JsonReadProps ShmModel SmcModel SmcSpec SmcProofs.
Local Open Scope string_scope.
Local Open Scope list_scope.
Local Open Scope Z_scope.

(** ** Texts that are sent *)
Definition simple (ps : list (string * json)) : Prop := forall n y, In (n, y) ps -> (exists z, y = JInt z /\ fits z) \/ exists s, y = JStr s.
Lemma sent_text c now ty v ps : clock_ok c -> ty <> TIllegal -> v <> VIllegal -> simple ps ->
  exists t, encode_text c (Msg true [("params", JObj ps)] ty v (Some 0) (Some now)) = Ret t /\ message c t (name_of_type ty) (name_of_val v) (JObj ps) /\
    parse t = Some (JObj [("params", JObj ps); ("msg_type", JStr (name_of_type ty)); ("msg_val", JStr (name_of_val v)); ("id", JInt 0); ("timestamp", JStr (time_text c (Some now)))]).
Proof.
  intros (TO & NO) NT NV S. destruct (TO now) as (T1 & T2).
  set (d := [("params", JObj ps); ("msg_type", JStr (name_of_type ty)); ("msg_val", JStr (name_of_val v)); ("id", JInt 0); ("timestamp", JStr (time_text c (Some now)))]).
  assert (E : encode c (Msg true [("params", JObj ps)] ty v (Some 0) (Some now)) = Ret d) by (unfold encode; cbn [g_id g_time g_val g_type g_doc]; rewrite (cstr_id _ T1); reflexivity).
  assert (P : parse (fst (emit (JObj d))) = Some (JObj d)).
  { assert (SS : forall x, occurs x (JObj ps) -> x = JObj ps \/ (exists z, x = JInt z /\ fits z) \/ exists s, x = JStr s).
    { intros x O. inversion O; subst; [auto|]. right. match goal with I : In _ ps, Q : occurs _ _ |- _ => destruct (S _ _ I) as [(z & -> & F)|(s & ->)]; inversion Q; subst; eauto end. }
    assert (OO : forall x, occurs x (JObj d) -> x = JObj d \/ x = JObj ps \/ (exists z, x = JInt z /\ fits z) \/ exists s, x = JStr s).
    { intros x O. inversion O as [| |x' n y l I Q]; subst; [auto|]. right. unfold d in I. cbn [In] in I. destruct I as [I|[I|[I|[I|[I|[]]]]]]; injection I as <- <-.
      - apply SS, Q. - inversion Q; subst; eauto. - inversion Q; subst; eauto. - inversion Q; subst. right; left. exists 0. split; [reflexivity|unfold fits; lia]. - inversion Q; subst; eauto. }
    apply c55_integers.
    - intros b O. destruct (OO _ O) as [X|[X|[(z & X & _)|(s & X)]]]; discriminate X.
    - intros z O. destruct (OO _ O) as [X|[X|[(z' & X & F)|(s & X)]]]; try discriminate X. injection X as ->. exact F. }
  exists (fst (emit (JObj d))). split; [unfold encode_text; rewrite E; reflexivity|]. split; [|exact P].
  assert (C1 : reads (name_of_type ty) (name_of_type ty)) by (apply cstr_reads; destruct ty; reflexivity). assert (C2 : reads (name_of_val v) (name_of_val v)) by (apply cstr_reads; destruct v; reflexivity).
  exists (JObj d), (name_of_type ty), (name_of_val v), (time_text c (Some now)). split; [exact P|].
  assert (L : forall k y, find_member k d = Some y -> leads [k] (JObj d) y) by (intros k y F; apply leads1; eauto).
  split; [apply L; reflexivity|]. split; [exact C1|]. split; [apply L; reflexivity|]. split; [exact C2|]. split; [apply L; reflexivity|]. split; [exists (time_text c (Some now)), now; split; [split; [exact T1|auto]|exact T2]|].
  split; [right; exists 0; split; [apply L; reflexivity|lia]|]. split; [apply L; reflexivity|exists ps; reflexivity].
Qed.
Lemma wrap_range z : 0 <= wrap64 z < 2 ^ 64. Proof. apply Z.mod_pos_bound. lia. Qed.
Lemma text_ask e : clock_ok (e_clock e) -> exists t, text e TCmd VBufferConfigRequest [] = Ret t /\ asks (e_clock e) t.
Proof.
  intros C. destruct (sent_text (e_clock e) (e_now e) TCmd VBufferConfigRequest [] C) as (t & E & M & _); try discriminate; [intros n y []|]. exists t. split; [exact E|eexists; exact M].
Qed.
Lemma text_give e b no : clock_ok (e_clock e) -> 0 <= b < 2 ^ 64 -> exists t, text e TNotify VFrameRelease [("frame", XUint64 (wrap64 no)); ("buffer_id", XUint64 b)] = Ret t /\ frees (e_clock e) t b (wrap64 no).
Proof.
  intros C B. pose proof (wrap_range no). destruct (sent_text (e_clock e) (e_now e) TNotify VFrameRelease [("frame", JInt (wrap64 no)); ("buffer_id", JInt b)] C) as (t & E & M & _); try discriminate.
  - intros n y [I|[I|[]]]; injection I as <- <-; left; eexists; split; [reflexivity|unfold fits; lia|reflexivity|unfold fits; lia].
  - exists t. split; [exact E|]. eexists. split; [exact M|]. split; apply leads1; eexists; split; reflexivity.
Qed.
Lemma text_ready e b no : clock_ok (e_clock e) -> - 2 ^ 31 <= b < 2 ^ 31 -> b <> -1 -> - 2 ^ 31 <= no < 2 ^ 31 -> exists t, frame_ready e b no = Ret t /\ ready (e_clock e) t b no.
Proof.
  intros C B N F. destruct (sent_text (e_clock e) (e_now e) TNotify VFrameReady [("frame", JInt no); ("buffer_id", JInt b)] C) as (t & E & M & _); try discriminate.
  - intros n y [I|[I|[]]]; injection I as <- <-; left; eexists; split; [reflexivity|unfold fits; lia|reflexivity|unfold fits; lia].
  - exists t. split; [exact E|]. eexists. split; [exact M|]. split; [apply leads1; eexists; split; reflexivity|]. split; [exact B|]. split; [exact N|]. left. split; [apply leads1; eexists; split; reflexivity|exact F].
Qed.

(** ** Steps *)
Lemma give_eq e f s s' : give_back e f s = Ret s' -> exists k t, z_ctl s = Some (f_ctl f, k) /\ text e TNotify VFrameRelease [("frame", XUint64 (wrap64 (f_no f))); ("buffer_id", XUint64 (f_buf f))] = Ret t /\ s' = add_out [EGive (f_ctl f) t] s.
Proof.
  unfold give_back. destruct (text _ _ _ _) as [t|x|]; try discriminate. destruct (z_ctl s) as [(c, k)|] eqn:Z; [|discriminate]. destruct (Nat.eqb_spec c (f_ctl f)) as [->|]; [|discriminate]. intros [= <-]. eauto.
Qed.
Lemma frame_eq e b no c k j g s s' : new_frame e b no c k j g s = Ret s' -> exists a z f, address g (b mod 2 ^ 32) (e_shm e) = Ret a /\ buf_size g (e_shm e) = Ret z /\ f = Frame (z_next s) c j (wrap64 b) no a z (List.length (k_cbs k)) /\
  let s1 := add_out (EFrame f :: map (fun p => EQueue (snd p) (f_id f)) (k_cbs k)) (up s) in
  (k_cbs k = [] /\ give_back e f s1 = Ret s' \/ k_cbs k <> [] /\ s' = set_frames (z_frames s ++ [f]) s1).
Proof.
  unfold new_frame. destruct (address g _ _) as [a|x|]; try discriminate. destruct (buf_size g _) as [z|x|]; try discriminate. intros H. exists a, z, (Frame (z_next s) c j (wrap64 b) no a z (List.length (k_cbs k))). split; [reflexivity|]. split; [reflexivity|]. split; [reflexivity|]. cbn zeta.
  destruct (k_cbs k) eqn:K; [left; auto|right]. split; [discriminate|]. injection H as <-. reflexivity.
Qed.
Lemma manager_eq e n c k s s' : set_manager e n c k s = Ret s' -> exists g, attach n (e_shm e) = Ret g /\ s' = up (set_ctl (Some (c, Ctl (Some (z_next s, g)) true (k_def k) (k_cbs k))) s).
Proof. unfold set_manager. destruct (attach _ _); try discriminate. intros [= <-]. eauto. Qed.
Lemma request_eq e c k s s' : request_config e c k s = Ret s' -> let s1 := set_ctl (Some (c, Ctl (k_map k) (k_conf k) false (k_cbs k))) s in
  (k_def k && k_conf k = true /\ s' = s1) \/ k_def k && k_conf k = false /\ exists t, text e TCmd VBufferConfigRequest [] = Ret t /\ s' = add_out [EAsk c t] s1.
Proof. unfold request_config. destruct (k_def k && k_conf k); [intros [= <-]; auto|]. destruct (text _ _ _ _) as [t|x|]; try discriminate. intros [= <-]. eauto. Qed.
Lemma on_eq c s h s' : on c s h = Ret s' -> exists k, z_ctl s = Some (c, k) /\ h k = Ret s'.
Proof. unfold on. destruct (z_ctl s) as [(d, k)|]; [|discriminate]. destruct (Nat.eqb_spec c d) as [->|]; [|discriminate]. eauto. Qed.
Lemma find_in f s x : find_frame f s = Some x -> In x (z_frames s) /\ f_id x = f.
Proof. intros H. apply find_some in H. destruct H as (I & E). apply Nat.eqb_eq in E. auto. Qed.

(** Results of steps, by kind *)
Inductive stepped (e : env) (ck : clock) : op -> smc -> smc -> Prop :=
| sp_setup x s : x <> SecondFails -> stepped e ck (KSetup x) s (match x with Both => Smc (Some (z_next s, Ctl None false true [])) (z_poll s) (z_ghost s) (z_timers s ++ [z_next s]) (z_frames s) (S (z_next s)) (z_out s) | _ => set_ctl None s end)
| sp_ghost s : stepped e ck (KSetup SecondFails) s (Smc None (z_poll s) true (z_timers s) (z_frames s) (z_next s) (z_out s))
| sp_close s : stepped e ck KClose s (set_ctl None s)
| sp_poll s : stepped e ck KPoll s (Smc (z_ctl s) (option_map fst (z_ctl s)) (z_ghost s) (z_timers s) (z_frames s) (z_next s) (z_out s))
| sp_frame c t k b no j g a z s : z_ctl s = Some (c, k) -> ready ck t b no -> k_map k = Some (j, g) -> address g (b mod 2 ^ 32) (e_shm e) = Ret a -> buf_size g (e_shm e) = Ret z -> k_cbs k <> [] ->
    let f := Frame (z_next s) c j (wrap64 b) no a z (List.length (k_cbs k)) in
    stepped e ck (KMessage c t) s (set_frames (z_frames s ++ [f]) (add_out (EFrame f :: map (fun p => EQueue (snd p) (f_id f)) (k_cbs k)) (up s)))
| sp_nobody c t k b no j g a z u s : z_ctl s = Some (c, k) -> ready ck t b no -> k_map k = Some (j, g) -> address g (b mod 2 ^ 32) (e_shm e) = Ret a -> buf_size g (e_shm e) = Ret z -> k_cbs k = [] ->
    frees ck u (wrap64 b) (wrap64 no) -> let f := Frame (z_next s) c j (wrap64 b) no a z 0 in
    stepped e ck (KMessage c t) s (add_out [EFrame f; EGive c u] (up s))
| sp_config c t k n g s : z_ctl s = Some (c, k) -> config ck t n -> attach n (e_shm e) = Ret g -> stepped e ck (KMessage c t) s (up (set_ctl (Some (c, Ctl (Some (z_next s, g)) true (k_def k) (k_cbs k))) s))
| sp_nothing c t k s : z_ctl s = Some (c, k) -> (forall n, ~ config ck t n) -> ((exists b no, ready ck t b no) -> k_map k = None) -> stepped e ck (KMessage c t) s s
| sp_quiet c k s : z_ctl s = Some (c, k) -> k_def k && k_conf k = true ->
    stepped e ck (KTimer c) s (Smc (Some (c, Ctl (k_map k) (k_conf k) false (k_cbs k))) (z_poll s) (z_ghost s) (drop_first c (z_timers s)) (z_frames s) (z_next s) (z_out s))
| sp_ask c k t s : z_ctl s = Some (c, k) -> k_def k && k_conf k = false -> asks ck t ->
    stepped e ck (KTimer c) s (Smc (Some (c, Ctl (k_map k) (k_conf k) false (k_cbs k))) (z_poll s) (z_ghost s) (drop_first c (z_timers s)) (z_frames s) (z_next s) (z_out s ++ [EAsk c t]))
| sp_known n p c k s : z_ctl s = Some (c, k) -> sm_get (k_cbs k) n <> None -> stepped e ck (KRegister n p) s s
| sp_register n p c k s : z_ctl s = Some (c, k) -> sm_get (k_cbs k) n = None -> stepped e ck (KRegister n p) s (set_ctl (Some (c, Ctl (k_map k) (k_conf k) (k_def k) (sm_put (k_cbs k) n p))) s)
| sp_remove n c k s : z_ctl s = Some (c, k) -> stepped e ck (KRemove n) s (set_ctl (Some (c, Ctl (k_map k) (k_conf k) (k_def k) (sm_del (k_cbs k) n))) s)
| sp_eoa c k s : z_ctl s = Some (c, k) -> stepped e ck KEoa s (add_out (map (fun p => EEoa (snd p)) (k_cbs k)) s)
| sp_share f x s : find_frame f s = Some x -> stepped e ck (KShare f) s (put_frame (with_refs (S (f_refs x)) x) s)
| sp_drop f x n s : find_frame f s = Some x -> f_refs x = S (S n) -> stepped e ck (KDrop f) s (put_frame (with_refs (S n) x) s)
| sp_last f x k t s : find_frame f s = Some x -> (f_refs x <= 1)%nat -> z_ctl s = Some (f_ctl x, k) -> (0 <= f_buf x < 2 ^ 64 -> frees ck t (f_buf x) (wrap64 (f_no x))) -> stepped e ck (KDrop f) s (add_out [EGive (f_ctl x) t] (del_frame f s))
| sp_number f x no s : find_frame f s = Some x -> stepped e ck (KNumber f no) s (put_frame (with_number no x) s)
| sp_read f x s : find_frame f s = Some x -> readable e x s = true -> stepped e ck (KRead f) s s.

Lemma step_cases e ck o s s' : clock_ok ck -> e_clock e = ck -> possible o s = true -> kstep e o s = Ret s' -> stepped e ck o s s'.
Proof.
  intros C <- PO H. pose proof C as (_ & NONE). destruct o; cbn [kstep] in H.
  - destruct o; cbn in H; injection H as <-; [apply (sp_setup e _ Both)|apply (sp_setup e _ FirstFails)|apply sp_ghost]; discriminate.
  - injection H as <-. apply sp_close.
  - destruct (z_ghost s) eqn:G; [discriminate|]. injection H as <-. rewrite <- G. apply sp_poll.
  - apply on_eq in H. destruct H as (k & Z & H). destruct (handle_cases e t c k s NONE) as [(b & no & j & g & R & M & E)|[(n & R & E)|(E & R1 & R2)]]; rewrite E in H.
    + apply frame_eq in H. destruct H as (a & z & f & A & B & -> & [(K & H)|(K & ->)]); [|eapply sp_frame; eassumption].
      apply give_eq in H. cbn [f_ctl f_no f_buf] in H. destruct H as (k' & u & _ & T & ->). rewrite K. destruct (text_give e (wrap64 b) no C (wrap_range b)) as (u' & T' & F). rewrite T' in T. injection T as <-.
      assert (S := sp_nobody e (e_clock e) c t k b no j g a z u' s Z R M A B K F). cbn zeta in S. revert S. unfold add_out, up. cbn. rewrite <- app_assoc. cbn. auto.
    + apply manager_eq in H. destruct H as (g & A & ->). eapply sp_config; eassumption.
    + injection H as <-. eapply sp_nothing; eassumption.
  - apply on_eq in H. cbn [z_ctl] in H. destruct H as (k & Z & H). apply request_eq in H. cbn zeta in H. destruct H as [(D & ->)|(D & t & T & ->)].
    + apply (sp_quiet e _ c k s Z D).
    + destruct (text_ask e C) as (t' & T' & A). rewrite T' in T. injection T as <-. apply (sp_ask e _ c k t' s Z D A).
  - injection H as <-. cbn in PO. destruct (z_ctl s) as [(c, k)|] eqn:Z; [|discriminate]. destruct (sm_get (k_cbs k) n) eqn:G; [eapply sp_known; [exact Z|congruence]|eapply sp_register; eassumption].
  - injection H as <-. cbn in PO. destruct (z_ctl s) as [(c, k)|] eqn:Z; [|discriminate]. apply sp_remove, Z.
  - injection H as <-. cbn in PO. destruct (z_ctl s) as [(c, k)|] eqn:Z; [|discriminate]. eapply sp_eoa, Z.
  - unfold on_frame in H. cbn in PO. destruct (find_frame f s) as [x|] eqn:F; [|discriminate]. injection H as <-. apply sp_share, F.
  - unfold on_frame in H. cbn in PO. destruct (find_frame f s) as [x|] eqn:F; [|discriminate]. destruct (f_refs x) as [|[|n]] eqn:R.
    1,2: apply give_eq in H; destruct H as (k & t & Z & T & ->); cbn in Z; eapply sp_last; [exact F|lia|exact Z|]; intros B; destruct (text_give e (f_buf x) (f_no x) C B) as (t' & T' & FR); congruence.
    injection H as <-. eapply sp_drop; eassumption.
  - unfold on_frame in H. cbn in PO. destruct (find_frame f s) as [x|] eqn:F; [|discriminate]. injection H as <-. apply sp_number, F.
  - unfold on_frame in H. cbn in PO. destruct (find_frame f s) as [x|] eqn:F; [|discriminate]. destruct (readable e x s) eqn:R; [|discriminate]. injection H as <-. eapply sp_read; eassumption.
Qed.

Lemma message_type c t a b p a' b' p' : message c t a b p -> message c t a' b' p' -> a = a' /\ b = b'.
Proof.
  intros (x & u & v & h & P & A & RA & B & RB & _) (x' & u' & v' & h' & P' & A' & RA' & B' & RB' & _). rewrite P in P'. injection P' as <-.
  apply leads1 in A, A', B, B'. destruct A as (l & -> & A), A' as (l' & E & A'). injection E as <-. destruct B as (l2 & E & B), B' as (l3 & E' & B'). injection E as <-. injection E' as <-.
  rewrite A in A'. injection A' as <-. rewrite B in B'. injection B' as <-. apply cstr_reads in RA, RA', RB, RB'. split; congruence.
Qed.
Lemma ready_config c t b no n : ready c t b no -> config c t n -> False.
Proof. intros (p & M & _) (p' & a & M' & _). destruct (message_type _ _ _ _ _ _ _ _ M M') as (_ & E). discriminate E. Qed.
Lemma list_eq_dec_nil {A} (l : list A) : {l = []} + {l <> []}. Proof. destruct l; [left; reflexivity|right; discriminate]. Qed.
(** ** Runs *)
Lemma one_clock_app ck l e o : one_clock ck (l ++ [(e, o)]) -> one_clock ck l /\ e_clock e = ck.
Proof. intros (C & H). split; [split; [exact C|intros e' o' I; apply (H e' o'), in_or_app; auto]|apply (H e o), in_or_app; cbn; auto]. Qed.

Lemma told_snoc l e o : told (l ++ [(e, o)]) <-> (exists c t n, o = KMessage c t /\ config (e_clock e) t n) \/ (told l /\ o <> KClose /\ forall x, o <> KSetup x).
Proof.
  split.
  - intros (l1 & e1 & c & t & n & l2 & E & C & A). destruct (list_eq_dec_nil l2) as [->|N].
    + apply app_inj_tail in E. destruct E as (_ & E). injection E as -> ->. left. eauto 6.
    + destruct (exists_last N) as (l2' & (e2, o2) & ->). rewrite app_comm_cons, app_assoc in E. apply app_inj_tail in E. destruct E as (-> & E). injection E as -> ->. right. split; [|apply (A e2 o2), in_or_app; cbn; auto].
      exists l1, e1, c, t, n, l2'. split; [reflexivity|]. split; [exact C|]. intros e' o' I. apply (A e' o'), in_or_app. auto.
  - intros [(c & t & n & -> & C)|((l1 & e1 & c & t & n & l2 & -> & C & A) & O1 & O2)].
    + exists l, e, c, t, n, []. split; [reflexivity|]. split; [exact C|intros e' o' []].
    + exists l1, e1, c, t, n, (l2 ++ [(e, o)]). split; [rewrite <- app_assoc; reflexivity|]. split; [exact C|]. intros e' o' I. apply in_app_or in I. destruct I as [I|[[= <- <-]|[]]]; [apply (A e' o' I)|auto].
Qed.

Definition conf_inv (l : list (env * op)) (s : smc) : Prop :=
  match z_ctl s with Some (c, k) => (k_conf k = true <-> told l) /\ (k_conf k = true <-> k_map k <> None) | None => ~ told l end.
Lemma conf_kept l e o (s s' : smc) : (forall c t n, o = KMessage c t -> ~ config (e_clock e) t n) -> (o <> KClose /\ forall x, o <> KSetup x) ->
  option_map (fun p => (k_conf (snd p), k_map (snd p))) (z_ctl s) = option_map (fun p => (k_conf (snd p), k_map (snd p))) (z_ctl s') -> conf_inv l s -> conf_inv (l ++ [(e, o)]) s'.
Proof.
  intros NC NS E. unfold conf_inv. destruct (z_ctl s) as [(c, k)|], (z_ctl s') as [(c', k')|]; cbn in E; try discriminate E.
  - injection E as <- <-. intros (A & B). split; [|exact B]. rewrite A, told_snoc. split; [intros T; right; auto|]. intros [(d & t & n & -> & C)|(T & _)]; [destruct (NC d t n eq_refl C)|exact T].
  - intros N T. apply told_snoc in T. destruct T as [(d & t & n & -> & C)|(T & _)]; [destruct (NC d t n eq_refl C)|auto].
Qed.
Lemma conf_ok ck l s : krun l s -> one_clock ck l -> conf_inv l s.
Proof.
  induction 1 as [|l s e o s' R IH P H]; intros OC; [intros (l1 & e1 & c & t & n & l2 & E & _); destruct l1; discriminate E|].
  apply one_clock_app in OC. destruct OC as (OC & E). specialize (IH OC). pose proof OC as (CK & _). subst ck. pose proof (step_cases e (e_clock e) o s s' CK eq_refl P H) as S. clear H P.
  destruct S; try solve [apply (conf_kept l e _ s); [intros ? ? ? Q; discriminate Q|split; [discriminate|intros ? Q; discriminate Q]| |exact IH]; first [reflexivity|repeat match goal with Z : z_ctl s = Some _ |- _ => rewrite Z end; reflexivity]].
  - unfold conf_inv in *. destruct x; cbn [z_ctl set_ctl]; [|intros T; apply told_snoc in T; destruct T as [(d & t & n & Q & _)|(_ & _ & Q)]; [discriminate Q|exact (Q _ eq_refl)]|contradiction].
    cbn. split; (split; [discriminate|intros T]); [|contradiction]. apply told_snoc in T. destruct T as [(d & t & n & Q & _)|(_ & _ & Q)]; [discriminate Q|destruct (Q _ eq_refl)].
  - cbn. intros T. apply told_snoc in T. destruct T as [(d & t & n & Q & _)|(_ & _ & Q)]; [discriminate Q|exact (Q _ eq_refl)].
  - cbn. intros T. apply told_snoc in T. destruct T as [(d & t & n & Q & _)|(_ & Q & _)]; [discriminate Q|exact (Q eq_refl)].
  - apply (conf_kept l e _ s); [intros d u n Q N; injection Q as <- <-|split; [discriminate|intros ? Q; discriminate Q]| |exact IH]; [|reflexivity].
    eapply ready_config; eassumption.
  - apply (conf_kept l e _ s); [intros d v n Q N; injection Q as <- <-|split; [discriminate|intros ? Q; discriminate Q]| |exact IH]; [|reflexivity].
    eapply ready_config; eassumption.
  - unfold conf_inv. cbn. split; split; [intros _; apply told_snoc; left; eauto 6|reflexivity|discriminate|reflexivity].
  - apply (conf_kept l e _ s); [intros d u n Q N; injection Q as <- <-|split; [discriminate|intros ? Q; discriminate Q]|reflexivity|exact IH]. match goal with X : forall n, ~ config _ _ n |- _ => exact (X _ N) end.
Qed.

Lemma hist_snoc (l : list (env * op)) e o : rev (map snd (l ++ [(e, o)])) = o :: rev (map snd l).
Proof. rewrite map_app, rev_app_distr. reflexivity. Qed.
Definition reg_inv (l : list (env * op)) (s : smc) : Prop :=
  match z_ctl s with Some (c, k) => sm_ok (k_cbs k) /\ forall n, sm_get (k_cbs k) n = registered n (rev (map snd l)) | None => forall n, registered n (rev (map snd l)) = None end.
Lemma reg_kept l e o (s s' : smc) : (forall n, registered n (o :: rev (map snd l)) = registered n (rev (map snd l))) ->
  option_map (fun p => k_cbs (snd p)) (z_ctl s) = option_map (fun p => k_cbs (snd p)) (z_ctl s') -> reg_inv l s -> reg_inv (l ++ [(e, o)]) s'.
Proof.
  intros NC E. unfold reg_inv. rewrite hist_snoc. destruct (z_ctl s) as [(c, k)|], (z_ctl s') as [(c', k')|]; cbn in E; try discriminate E.
  - injection E as <-. intros (A & B). split; [exact A|]. intros n. rewrite NC. apply B.
  - intros N n. rewrite NC. apply N.
Qed.
Lemma reg_ok ck l s : krun l s -> one_clock ck l -> reg_inv l s.
Proof.
  induction 1 as [|l s e o s' R IH P H]; intros OC; [intros n; reflexivity|].
  apply one_clock_app in OC. destruct OC as (OC & E). specialize (IH OC). pose proof OC as (CK & _). subst ck. pose proof (step_cases e (e_clock e) o s s' CK eq_refl P H) as S. clear H P.
  destruct S; try solve [apply (reg_kept l e _ s); [intros ?; reflexivity| |exact IH]; first [reflexivity|repeat match goal with Z : z_ctl s = Some _ |- _ => rewrite Z end; reflexivity]].
  - unfold reg_inv in *. rewrite hist_snoc. destruct x; [split; [exact Logic.I|intros n; reflexivity]|intros n; reflexivity|intros n; reflexivity].
  - unfold reg_inv. rewrite hist_snoc. intros n; reflexivity.
  - unfold reg_inv. rewrite hist_snoc. intros n; reflexivity.
  - apply (reg_kept l e _ s); [|reflexivity|exact IH]. intros m. unfold reg_inv in IH. rewrite H in IH. destruct IH as (_ & IH). rewrite <- IH. cbn [registered]. destruct (String.eqb_spec n m) as [<-|]; [|symmetry; apply IH]. rewrite <- IH. destruct (sm_get (k_cbs k) n); [reflexivity|contradiction].
  - unfold reg_inv in *. rewrite hist_snoc. rewrite H in IH. destruct IH as (O & IH). cbn. split; [apply sm_put_ok, O|]. intros m. rewrite sm_get_put. cbn [registered]. rewrite <- IH. destruct (String.eqb_spec m n) as [->|N]; [rewrite String.eqb_refl, H0; reflexivity|destruct (String.eqb_spec n m) as [->|_]; [contradiction|reflexivity]].
  - unfold reg_inv in *. rewrite hist_snoc. rewrite H in IH. destruct IH as (O & IH). cbn. split; [apply sm_del_ok, O|]. intros m. rewrite sm_get_del by exact O. cbn [registered]. rewrite <- IH. destruct (String.eqb_spec m n) as [->|N]; [rewrite String.eqb_refl; reflexivity|destruct (String.eqb_spec n m) as [->|_]; [contradiction|reflexivity]].
Qed.

Lemma requests_app c l m : requests c (l ++ m) = requests c l ++ requests c m.
Proof. induction l as [|[f|p f|p|d t|d t] l IH]; cbn; try exact IH; [reflexivity|]. destruct (Nat.eqb c d); cbn; rewrite IH; reflexivity. Qed.
Lemma releases_app l m : releases (l ++ m) = releases l ++ releases m.
Proof. induction l as [|[f|p f|p|d t|d t] l IH]; cbn; try exact IH; [reflexivity|]. rewrite IH; reflexivity. Qed.
Lemma made_app l m : made (l ++ m) = made l ++ made m.
Proof. induction l as [|[f|p f|p|d t|d t] l IH]; cbn; try exact IH; [reflexivity|]. rewrite IH; reflexivity. Qed.
Lemma requests_queue c (l : smap nat) i : requests c (map (fun p => EQueue (snd p) i) l) = []. Proof. induction l; cbn; auto. Qed.
Lemma releases_queue (l : smap nat) i : releases (map (fun p => EQueue (snd p) i) l) = []. Proof. induction l; cbn; auto. Qed.
Lemma made_queue (l : smap nat) i : made (map (fun p => EQueue (snd p) i) l) = []. Proof. induction l; cbn; auto. Qed.
Lemma requests_eoa c (l : smap nat) : requests c (map (fun p => EEoa (snd p)) l) = []. Proof. induction l; cbn; auto. Qed.
Lemma releases_eoa (l : smap nat) : releases (map (fun p => EEoa (snd p)) l) = []. Proof. induction l; cbn; auto. Qed.
Lemma made_eoa (l : smap nat) : made (map (fun p => EEoa (snd p)) l) = []. Proof. induction l; cbn; auto. Qed.

Lemma drop_in c d l : In d (drop_first c l) -> In d l.
Proof. induction l as [|a l IH]; cbn; [auto|]. destruct (Nat.eqb c a); cbn; tauto. Qed.
Lemma drop_other c d l : d <> c -> In d l -> In d (drop_first c l).
Proof. induction l as [|a l IH]; cbn; [auto|]. intros N. destruct (Nat.eqb_spec c a) as [->|]; cbn; intros [->|I]; auto; contradiction. Qed.
Lemma drop_gone c l : NoDup l -> ~ In c (drop_first c l).
Proof. induction 1 as [|a l N D IH]; cbn; [auto|]. destruct (Nat.eqb_spec c a) as [->|X]; [exact N|]. intros [->|I]; [congruence|auto]. Qed.
Lemma drop_nodup c l : NoDup l -> NoDup (drop_first c l).
Proof. induction 1 as [|a l N D IH]; cbn; [constructor|]. destruct (Nat.eqb c a); [exact D|]. constructor; [intros I; apply N, (drop_in c), I|exact IH]. Qed.

Definition fired (c : nat) (l : list (env * op)) : Prop := exists e, In (e, KTimer c) l.
Lemma fired_snoc c l e o : fired c (l ++ [(e, o)]) <-> fired c l \/ o = KTimer c.
Proof.
  split.
  - intros (e' & I). apply in_app_or in I. destruct I as [I|[E|[]]]; [left; exists e'; exact I|right; congruence].
  - intros [(e' & I)|E]; [exists e'; apply in_or_app; auto|subst o; exists e; apply in_or_app; right; left; reflexivity].
Qed.
Record timer_inv (l : list (env * op)) (s : smc) : Prop := {
  ti_nodup : NoDup (z_timers s);
  ti_wait : forall c, In c (z_timers s) -> (c < z_next s)%nat /\ requests c (z_out s) = [] /\ ~ fired c l;
  ti_new : forall c, (z_next s <= c)%nat -> requests c (z_out s) = [] /\ ~ fired c l;
  ti_one : forall c, (List.length (requests c (z_out s)) <= 1)%nat;
  ti_ctl : forall c k, z_ctl s = Some (c, k) -> (c < z_next s)%nat /\ (In c (z_timers s) <-> k_def k = true) /\ (In c (z_timers s) \/ fired c l) }.
Lemma timer_kept l e o (s s' : smc) : (forall c, o <> KTimer c) -> z_timers s' = z_timers s -> (z_next s <= z_next s')%nat -> (forall c, requests c (z_out s') = requests c (z_out s)) ->
  (forall c k, z_ctl s' = Some (c, k) -> exists k', z_ctl s = Some (c, k') /\ k_def k = k_def k') -> timer_inv l s -> timer_inv (l ++ [(e, o)]) s'.
Proof.
  intros NT T X Q C [A B D E F]. assert (FS : forall c, fired c (l ++ [(e, o)]) <-> fired c l) by (intros c; rewrite fired_snoc; split; [intros [Y|Y]; [exact Y|destruct (NT c Y)]|auto]).
  constructor; rewrite ?T; [exact A|intros c I|intros c G|intros c|intros c k Z].
  - rewrite FS, Q. destruct (B c I) as (B1 & B2). split; [lia|exact B2]. - rewrite FS, Q. apply D. lia. - rewrite Q. apply E. - rewrite FS. destruct (C c k Z) as (k' & Z' & ->). destruct (F c k' Z') as (F1 & F2). split; [lia|exact F2].
Qed.
Lemma timer_ok ck l s : krun l s -> one_clock ck l -> timer_inv l s.
Proof.
  induction 1 as [|l s e o s' R IH P H]; intros OC.
  { constructor; cbn; [constructor|intros c []|intros c _; split; [reflexivity|intros (e & [])]|lia|discriminate]. }
  apply one_clock_app in OC. destruct OC as (OC & E). specialize (IH OC). pose proof OC as (CK & _). subst ck. pose proof (step_cases e (e_clock e) o s s' CK eq_refl P H) as S. clear H.
  destruct S; try solve [apply (timer_kept l e _ s); [discriminate|reflexivity|cbn; lia|intros cc; cbn [z_out add_out set_frames up set_ctl put_frame del_frame]; rewrite ?requests_app; cbn [requests]; rewrite ?requests_queue, ?requests_eoa, ?app_nil_r; reflexivity|
    cbn; intros cc kk Q; try discriminate Q; try (injection Q as <- <-); eauto|exact IH]].
  - destruct x; [|apply (timer_kept l e _ s); [discriminate|reflexivity|cbn; lia|reflexivity|discriminate|exact IH]|contradiction].
    destruct IH as [A B D E F]. assert (FS : forall c, fired c (l ++ [(e, KSetup Both)]) <-> fired c l) by (intros c; rewrite fired_snoc; split; [intros [Y|Y]; [exact Y|discriminate Y]|auto]).
    constructor; cbn [z_timers z_next z_out z_ctl].
    + apply (Permutation_NoDup (Permutation_cons_append (z_timers s) (z_next s))). constructor; [intros I; destruct (B _ I); lia|exact A].
    + intros c I. rewrite FS. apply in_app_or in I. destruct I as [I|[<-|[]]]; [destruct (B c I) as (B1 & B2); split; [lia|exact B2]|split; [lia|apply D; lia]].
    + intros c G. rewrite FS. apply D. lia.
    + exact E.
    + intros c k [= <- <-]. split; [lia|]. split; [split; [reflexivity|intros _; apply in_or_app; cbn; auto]|left; apply in_or_app; cbn; auto].
  - destruct IH as [A B D E F]. cbn in P. destruct (F c k H) as (F1 & F2 & F3). apply existsb_exists in P. destruct P as (c' & P & PE). apply Nat.eqb_eq in PE. subst c'.
    constructor; cbn [z_timers z_next z_out z_ctl].
    + apply drop_nodup, A.
    + intros d I. assert (d <> c) by (intros ->; exact (drop_gone c _ A I)). destruct (B d (drop_in _ _ _ I)) as (B1 & B2 & B3). split; [exact B1|]. split; [exact B2|]. rewrite fired_snoc. intros [Y|Y]; [auto|congruence].
    + intros d G. destruct (D d G) as (D1 & D2). split; [exact D1|]. rewrite fired_snoc. intros [Y|Y]; [auto|]. injection Y as ->. lia.
    + exact E.
    + intros d k' [= <- <-]. split; [exact F1|]. split; [split; [intros I; destruct (drop_gone c _ A I)|discriminate]|right; apply fired_snoc; auto].
  - destruct IH as [A B D E F]. cbn in P. destruct (F c k H) as (F1 & F2 & F3). apply existsb_exists in P. destruct P as (c' & P & PE). apply Nat.eqb_eq in PE. subst c'.
    assert (RQ : forall d, requests d (z_out s ++ [EAsk c t]) = if Nat.eqb d c then [t] else requests d (z_out s)).
    { intros d. rewrite requests_app. cbn. destruct (Nat.eqb_spec d c) as [->|]; [|apply app_nil_r]. destruct (B c P) as (_ & -> & _). reflexivity. }
    constructor; cbn [z_timers z_next z_out z_ctl].
    + apply drop_nodup, A.
    + intros d I. assert (N : d <> c) by (intros ->; exact (drop_gone c _ A I)). rewrite RQ. destruct (Nat.eqb_spec d c) as [|_]; [contradiction|]. destruct (B d (drop_in _ _ _ I)) as (B1 & B2 & B3). split; [exact B1|]. split; [exact B2|]. rewrite fired_snoc. intros [Y|Y]; [auto|congruence].
    + intros d G. rewrite RQ. destruct (Nat.eqb_spec d c) as [->|N]; [lia|]. destruct (D d G) as (D1 & D2). split; [exact D1|]. rewrite fired_snoc. intros [Y|Y]; [auto|]. injection Y as ->. contradiction.
    + intros d. rewrite RQ. destruct (Nat.eqb d c); [cbn; lia|apply E].
    + intros d k' [= <- <-]. split; [exact F1|]. split; [split; [intros I; destruct (drop_gone c _ A I)|discriminate]|right; apply fired_snoc; auto].
Qed.

(** ** Frames *)
Lemma nodup_left {A} (a b : list A) : NoDup (a ++ b) -> NoDup a.
Proof. induction a as [|x a IH]; cbn; intros N; [constructor|]. inversion N as [|? ? NI N']; subst. constructor; [intros I; apply NI, in_or_app; auto|apply IH, N']. Qed.
Lemma filter_all {A} (f : A -> bool) l : (forall y, In y l -> f y = true) -> filter f l = l.
Proof. induction l as [|a l IH]; cbn; intros H; [reflexivity|]. rewrite (H a) by auto. rewrite IH; auto. Qed.
Definition fid (k : nat * nat * nat * Z * Z * Z) : nat := fst (fst (fst (fst (fst k)))).
Lemma map_fid l : map f_id l = map fid (map ident l). Proof. rewrite map_map. reflexivity. Qed.
Record fr_inv (ck : clock) (s : smc) : Prop := {
  fi_gone : exists gone, Permutation (map ident (made (z_out s))) (map ident (z_frames s ++ gone)) /\ returned ck gone (releases (z_out s));
  fi_ids : NoDup (map f_id (made (z_out s)));
  fi_next : forall f, In f (made (z_out s)) -> (f_id f < z_next s)%nat;
  fi_refs : forall f, In f (z_frames s) -> (1 <= f_refs f)%nat /\ 0 <= f_buf f < 2 ^ 64 }.
Lemma fi_nodup ck s : fr_inv ck s -> NoDup (map f_id (z_frames s)).
Proof.
  intros [(gone & P & _) N _ _]. rewrite map_fid in *. apply (Permutation_map fid) in P. apply (Permutation_NoDup P) in N. rewrite !map_app in N. eapply nodup_left, N.
Qed.
Lemma map_put l x x' : NoDup (map f_id l) -> In x l -> ident x' = ident x -> map ident (map (fun y => if Nat.eqb (f_id y) (f_id x') then x' else y) l) = map ident l.
Proof.
  intros N I E. rewrite map_map. apply map_ext_in. intros y Y. destruct (Nat.eqb_spec (f_id y) (f_id x')) as [Q|]; [|reflexivity]. rewrite E. f_equal. assert (f_id x' = f_id x) by (injection E; auto).
  clear E. induction l as [|a l IH]; [destruct I|]. cbn in N. inversion N as [|? ? NI N']; subst. destruct I as [->|I], Y as [->|Y]; auto; exfalso; apply NI; [replace (f_id x) with (f_id y) by congruence|replace (f_id y) with (f_id x) by congruence]; apply in_map; assumption.
Qed.
Lemma filter_out l x : NoDup (map f_id l) -> In x l -> Permutation l (filter (fun y => negb (Nat.eqb (f_id y) (f_id x))) l ++ [x]).
Proof.
  induction l as [|a l IH]; intros N I; [destruct I|]. cbn in N. inversion N as [|? ? NI N']; subst. cbn [filter]. destruct I as [->|I].
  - rewrite Nat.eqb_refl. cbn. rewrite filter_all; [apply Permutation_cons_append|]. intros y Y. destruct (Nat.eqb_spec (f_id y) (f_id x)) as [Q|]; [|reflexivity]. exfalso. apply NI. rewrite <- Q. apply in_map, Y.
  - destruct (Nat.eqb_spec (f_id a) (f_id x)) as [Q|]; [exfalso; apply NI; rewrite Q; apply in_map, I|]. cbn. constructor. apply IH; assumption.
Qed.
Lemma fr_kept ck (s s' : smc) : made (z_out s') = made (z_out s) -> releases (z_out s') = releases (z_out s) -> map ident (z_frames s') = map ident (z_frames s) -> (z_next s <= z_next s')%nat ->
  (forall f, In f (z_frames s') -> (1 <= f_refs f)%nat) -> fr_inv ck s -> fr_inv ck s'.
Proof.
  intros M R F X Y [(gone & P & G) B C D]. constructor; rewrite ?M.
  - exists gone. rewrite R, map_app, F, <- map_app. split; assumption.
  - exact B. - intros f I. specialize (C f I). lia.
  - intros f I. split; [apply Y, I|]. apply (in_map ident) in I. rewrite F in I. apply in_map_iff in I. destruct I as (f' & E & I). destruct (D f' I) as (_ & D'). replace (f_buf f) with (f_buf f') by (injection E; auto). exact D'.
Qed.
Lemma refs_put l x f : (forall y, In y l -> (1 <= f_refs y)%nat) -> (1 <= f_refs x)%nat -> In f (map (fun y => if Nat.eqb (f_id y) (f_id x) then x else y) l) -> (1 <= f_refs f)%nat.
Proof. intros A B I. apply in_map_iff in I. destruct I as (y & <- & I). destruct (Nat.eqb _ _); auto. Qed.
Lemma fr_ok ck l s : krun l s -> one_clock ck l -> fr_inv ck s.
Proof.
  induction 1 as [|l s e o s' R IH P H]; intros OC; [constructor; [exists []; split; constructor|constructor|intros f []|intros f []]|].
  apply one_clock_app in OC. destruct OC as (OC & E). specialize (IH OC). pose proof OC as (CK & _). pose proof (step_cases e ck o s s' CK E P H) as S. clear H P.
  assert (RF : forall f, In f (z_frames s) -> (1 <= f_refs f)%nat) by (intros f I; apply (fi_refs _ _ IH f I)). pose proof (fi_nodup _ _ IH) as ND.
  destruct S; try solve [apply (fr_kept ck s); [cbn [z_out add_out set_frames up set_ctl]; rewrite ?made_app, ?made_eoa, ?app_nil_r; reflexivity|cbn [z_out add_out set_frames up set_ctl]; rewrite ?releases_app, ?releases_eoa, ?app_nil_r; reflexivity|
    reflexivity|cbn; lia|exact RF|exact IH]];
    try solve [destruct (find_in _ _ _ H) as (IN & <-); apply (fr_kept ck s); [reflexivity|reflexivity|cbn [z_frames put_frame set_frames]; apply (map_put _ x); [exact ND|exact IN|reflexivity]|cbn; lia|intros ff; cbn [z_frames put_frame set_frames]; apply refs_put; [exact RF|cbn; try lia; apply RF, IN]|exact IH]].
  - destruct x; [..|contradiction]; (apply (fr_kept ck s); [reflexivity|reflexivity|reflexivity|cbn; lia|exact RF|exact IH]).
  - destruct IH as [(gone & PP & G) B C D]. constructor; cbn [z_out z_frames z_next set_frames add_out up].
    + exists gone. rewrite made_app, releases_app. cbn [made releases]. rewrite made_queue, releases_queue, app_nil_r. split; [|exact G].
      rewrite map_app. etransitivity; [apply Permutation_app_tail, PP|]. rewrite !map_app, <- !app_assoc. apply Permutation_app_head, Permutation_app_comm.
    + rewrite made_app, map_app. cbn [made map]. rewrite made_queue. cbn [map]. apply (Permutation_NoDup (Permutation_cons_append _ _)). constructor; [|exact B]. intros I. apply in_map_iff in I. destruct I as (ff & Q & I). specialize (C ff I). subst f. cbn in Q. lia.
    + intros ff I. rewrite made_app in I. cbn [made] in I. rewrite made_queue in I. apply in_app_or in I. destruct I as [I|[<-|[]]]; [specialize (C ff I); lia|subst f; cbn; lia].
    + intros ff I. apply in_app_or in I. destruct I as [I|[<-|[]]]; [apply D, I|]. subst f. cbn [f_refs f_buf]. split; [destruct (k_cbs k); [contradiction|cbn; lia]|apply wrap_range].
  - destruct IH as [(gone & PP & G) B C D]. constructor; cbn [z_out z_frames z_next set_frames add_out up].
    + exists (gone ++ [f]). rewrite made_app, releases_app. cbn [made releases]. split; [|apply Forall2_app; [exact G|constructor; [|constructor]]; subst f; cbn; eauto].
      rewrite app_assoc, !map_app. apply Permutation_app_tail. rewrite <- map_app. exact PP.
    + rewrite made_app, map_app. cbn [made map]. apply (Permutation_NoDup (Permutation_cons_append _ _)). constructor; [|exact B]. intros I. apply in_map_iff in I. destruct I as (ff & Q & I). specialize (C ff I). subst f. cbn in Q. lia.
    + intros ff I. rewrite made_app in I. cbn [made] in I. apply in_app_or in I. destruct I as [I|[<-|[]]]; [specialize (C ff I); lia|subst f; cbn; lia].
    + exact D.
  - destruct (find_in _ _ _ H) as (IN & <-). destruct IH as [(gone & PP & G) B C D]. constructor; cbn [z_out z_frames z_next set_frames add_out up del_frame]; rewrite ?made_app, ?releases_app; cbn [made releases]; rewrite ?app_nil_r.
    + exists (gone ++ [x]). split; [|apply Forall2_app; [exact G|constructor; [|constructor]]; cbn; split; [reflexivity|eexists; apply H2; apply D, IN]].
      etransitivity; [exact PP|]. apply Permutation_map. etransitivity; [apply Permutation_app_tail, (filter_out _ x ND IN)|]. rewrite <- !app_assoc. apply Permutation_app_head. apply Permutation_app_comm.
    + exact B. + exact C. + intros ff I. apply filter_In in I. apply D, I.
Qed.

(** ** Careful runs *)
Lemma careful_is_run ck objs l s : clock_ok ck -> careful_run ck objs l s -> krun l s /\ one_clock ck l.
Proof.
  intros C. induction 1 as [|l s e o s' R IH P CA E OB H]; [split; [constructor|split; [exact C|intros e o []]]|]. destruct IH as (A & _ & B). split; [econstructor; eassumption|]. split; [exact C|]. intros e' o' I. apply in_app_or in I. destruct I as [I|[[= <- <-]|[]]]; [apply (B _ _ I)|exact E].
Qed.
Record care_inv (objs : nat -> obj) (s : smc) : Prop := {
  ca_ghost : z_ghost s = false;
  ca_timers : forall c, In c (z_timers s) -> exists k, z_ctl s = Some (c, k);
  ca_map : forall c k j g, z_ctl s = Some (c, k) -> k_map k = Some (j, g) -> g_region g = ob_size (objs (g_obj g)) /\ ob_size (objs (g_obj g)) <> 0;
  ca_frames : forall f, In f (z_frames s) -> exists k g, z_ctl s = Some (f_ctl f, k) /\ k_map k = Some (f_map f, g) /\ 0 <= f_addr f /\ f_addr f + f_size f <= g_region g }.
Lemma care_kept objs (s s' : smc) : z_ghost s' = z_ghost s -> (forall c, In c (z_timers s') -> In c (z_timers s)) -> option_map (fun p => (fst p, k_map (snd p))) (z_ctl s') = option_map (fun p => (fst p, k_map (snd p))) (z_ctl s) ->
  (forall f, In f (z_frames s') -> exists f', In f' (z_frames s) /\ ident f = ident f') -> care_inv objs s -> care_inv objs s'.
Proof.
  intros G T C F [A B D E].
  assert (CC : forall c k, z_ctl s = Some (c, k) -> exists k', z_ctl s' = Some (c, k') /\ k_map k' = k_map k).
  { intros c k Z. rewrite Z in C. cbn in C. destruct (z_ctl s') as [(c', k')|]; [|discriminate]. cbn in C. injection C as E1 E2. subst c'. eauto. }
  constructor.
  - rewrite G. exact A.
  - intros c I. destruct (B c (T c I)) as (k & Z). destruct (CC c k Z) as (k' & Z' & _). eauto.
  - intros c k j g Z M. rewrite Z in C. cbn in C. destruct (z_ctl s) as [(c0, k0)|] eqn:Z0; [|discriminate]. cbn in C. injection C as E1 Q. apply (D c0 k0 j g); [reflexivity|congruence].
  - intros f I. destruct (F f I) as (f' & I' & Q). destruct (E f' I') as (k & g & Z & M & X). destruct (CC _ k Z) as (k' & Z' & M'). exists k', g. unfold ident in Q. injection Q as Q1 Q2 Q3 Q4 Q5 Q6. rewrite Q2, Q3, Q5, Q6. split; [exact Z'|]. split; [congruence|exact X].
Qed.

Lemma put_ident l x y f : In x l -> ident y = ident x -> In f (map (fun z => if Nat.eqb (f_id z) (f_id y) then y else z) l) -> exists f', In f' l /\ ident f = ident f'.
Proof. intros I E J. apply in_map_iff in J. destruct J as (z & <- & J). destruct (Nat.eqb _ _); eauto. Qed.
Lemma room m n z t : 0 <= n -> 0 <= z -> header_size + n * z <= t < 2 ^ 63 -> m < n -> 0 <= m < 2 ^ 32 -> 0 <= header_size + wrap64 (m * z) /\ header_size + wrap64 (m * z) + z <= t.
Proof.
  change header_size with 24. intros N Z T L M. assert (m * z + z <= n * z) by nia. assert (0 <= m * z) by nia. set (x := m * z) in *. set (y := n * z) in *. clearbody x y. unfold wrap64. rewrite Z.mod_small; lia.
Qed.
Lemma care_ok ck objs l s : clock_ok ck -> roomy objs -> careful_run ck objs l s -> care_inv objs s.
Proof.
  intros C RO. induction 1 as [|l s e o s' R IH P CA E OB H]; [constructor; [reflexivity|intros c []|discriminate|intros f []]|].
  pose proof (step_cases e ck o s s' C E P H) as S. clear H.
  destruct S; try solve [apply (care_kept objs s); [reflexivity|intros cc; cbn; auto; apply drop_in|first [reflexivity|repeat match goal with Z : z_ctl s = Some _ |- _ => rewrite Z end; reflexivity]|
      cbn [z_frames set_frames put_frame del_frame add_out up set_ctl]; intros ff I; first [exists ff; split; [exact I|reflexivity]|exists ff; split; [apply filter_In in I; apply I|reflexivity]|refine (put_ident (z_frames s) x _ ff _ _ I); [eapply find_in; eassumption|reflexivity]]|exact IH]].
  - destruct CA as (CA1 & CF & CT). destruct IH as [A B D F]. constructor; destruct x; cbn [z_ghost z_timers z_ctl z_frames set_ctl]; try contradiction; rewrite ?CF, ?CT; cbn; try exact A; try tauto.
    + intros c [<-|[]]. eauto. + intros c k j g [= <- <-]. discriminate. + discriminate.
  - destruct CA as (CA1 & _). contradiction.
  - destruct CA as (CF & CT). destruct IH as [A B D F]. constructor; cbn [z_ghost z_timers z_ctl z_frames set_ctl]; rewrite ?CF, ?CT; cbn; try tauto. discriminate.
  - destruct IH as [A B D F]. constructor; cbn [z_ghost z_timers z_ctl z_frames set_ctl set_frames add_out up]; [exact A|exact B|exact D|].
    intros ff I. apply in_app_or in I. destruct I as [I|[<-|[]]]; [apply F, I|]. subst f. cbn [f_ctl f_map f_addr f_size]. exists k, g. split; [assumption|]. split; [assumption|].
    destruct (D c k j g) as (D1 & D2); [assumption..|]. destruct (RO _ D2) as (R1 & R2 & R3). unfold address in H2. unfold buf_size in H3. rewrite OB in *. destruct (g_region g <? header_size); [discriminate|]. destruct (Z.leb_spec (ob_num (objs (g_obj g))) (b mod 2 ^ 32)) as [|LT]; [discriminate|].
    injection H2 as <-. injection H3 as <-. rewrite D1. pose proof (Z.mod_pos_bound b (2 ^ 32) ltac:(lia)) as MB. apply (room _ (ob_num (objs (g_obj g)))); assumption.
  - destruct CA as (_ & CA). destruct IH as [A B D F]. constructor; cbn [z_ghost z_timers z_ctl z_frames set_ctl set_frames add_out up]; [exact A| | |].
    + intros d I. destruct (B d I) as (k' & Z). rewrite Z in H. injection H as -> ->. eauto.
    + intros c' k' j' g' [= <- <-]. cbn [k_map]. intros [= <- <-]. unfold attach in H1. destruct (s_names _ _); [|discriminate]. rewrite OB in H1. destruct (Z.eqb_spec (ob_size (objs n0)) 0); [discriminate|]. injection H1 as <-. cbn. auto.
    + rewrite CA by eauto. intros f [].
Qed.

Lemma caught_undef {A} (o : outcome ipcexc A) s f : caught o s f = Undef -> o = Undef \/ exists a, o = Ret a /\ f a = Undef.
Proof. destruct o as [a|[]|]; cbn; try discriminate; eauto. Qed.
Lemma careful_defined ck objs l s e o : clock_ok ck -> roomy objs -> careful_run ck objs l s -> possible o s = true -> careful ck o s -> e_clock e = ck -> (forall i, s_objs (e_shm e) i = objs i) -> kstep e o s <> Undef.
Proof.
  intros C RO R P CA E OB U. pose proof (care_ok ck objs l s C RO R) as [A B D F]. subst ck. pose proof C as (_ & NONE). destruct (careful_is_run _ _ _ _ C R) as (KR & OC). pose proof (fr_ok _ _ _ KR OC) as FI.
  assert (GB : forall f k s1, 0 <= f_buf f < 2 ^ 64 -> z_ctl s1 = Some (f_ctl f, k) -> give_back e f s1 <> Undef).
  { intros f k s1 FB Z. unfold give_back. destruct (text_give e (f_buf f) (f_no f) C FB) as (t & -> & _). rewrite Z, Nat.eqb_refl. discriminate. }
  destruct o; cbn [kstep] in U; try discriminate U.
  - destruct o; discriminate U.
  - rewrite A in U. discriminate U.
  - destruct CA as ((k & Z) & CA). unfold on in U. rewrite Z, Nat.eqb_refl in U. destruct (handle_cases e t c k s NONE) as [(b & no & j & g & RD & M & HE)|[(n & RD & HE)|(HE & _)]]; rewrite HE in U; [| |discriminate U].
    + destruct (D c k j g Z M) as (D1 & D2). destruct (RO _ D2) as (R1 & R2 & R3). assert (header_size = 24) by reflexivity. unfold new_frame in U. unfold address, buf_size in U. rewrite OB in U.
      destruct (Z.ltb_spec (g_region g) header_size) as [LT|_]; [rewrite D1 in LT; nia|]. destruct (ob_num _ <=? _); [discriminate U|]. destruct (k_cbs k); [|discriminate U]. eapply GB; [| |exact U]; [apply wrap_range|exact Z].
    + unfold set_manager, attach in U. destruct (s_names _ _); [|discriminate U]. destruct (_ =? 0); discriminate U.
  - cbn in P. apply existsb_exists in P. destruct P as (c' & P & PE). apply Nat.eqb_eq in PE. subst c'. destruct (B c P) as (k & Z). unfold on in U. cbn [z_ctl] in U. rewrite Z, Nat.eqb_refl in U. unfold request_config in U. destruct (k_def k && k_conf k); [discriminate U|]. destruct (text_ask e C) as (t & T & _). rewrite T in U. discriminate U.
  - unfold on_frame in U. destruct (find_frame f s); discriminate U.
  - unfold on_frame in U. destruct (find_frame f s) as [x|] eqn:FF; [|discriminate U]. destruct (find_in _ _ _ FF) as (IN & _). destruct (F x IN) as (k & g & Z & _). destruct (fi_refs _ _ FI x IN) as (_ & FB). destruct (f_refs x) as [|[|n]]; [..|discriminate U]; (eapply GB; [| |exact U]; [exact FB|exact Z]).
  - unfold on_frame in U. destruct (find_frame f s); discriminate U.
  - unfold on_frame in U. destruct (find_frame f s) as [x|] eqn:FF; [|discriminate U]. destruct (find_in _ _ _ FF) as (IN & _). destruct (F x IN) as (k & g & Z & M & X1 & X2). destruct (D _ _ _ _ Z M) as (D1 & D2). unfold readable in U. rewrite Z, M, Nat.eqb_refl, OB in U. cbn [andb] in U.
    destruct (Z.leb_spec 0 (f_addr x)); [|lia]. destruct (Z.leb_spec (f_addr x + f_size x) (g_region g)); [|lia]. destruct (Z.leb_spec (f_addr x + f_size x) (ob_size (objs (g_obj g)))); [|lia]. discriminate U.
Qed.
