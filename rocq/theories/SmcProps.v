(** C70: the frame processor maps the shared memory of the receiver, turns notifications into frames and gives every buffer back once. *)
From Coq Require Import String Ascii Permutation.
From Verif Require Import Base StrOrder JsonModel JsonReadModel JsonDoubleModel JsonSpec JsonProofs JsonRoundSpec JsonReadSpec JsonReadProps ShmModel SmcModel SmcSpec SmcProofs SmcRuns.
From Verif Require RcvModel.
Local Open Scope string_scope.
Local Open Scope list_scope.
Local Open Scope Z_scope.

(** ** In every run *)
(** The status says configured iff the name of a shared memory came in since the controller was made. *)
Theorem c70_status ck l s : krun l s -> one_clock ck l -> forall b, configured s = Some b -> (b = true <-> told l).
Proof. intros R C b E. pose proof (conf_ok _ _ _ R C) as I. unfold conf_inv in I. unfold configured in E. destruct (z_ctl s) as [(c, k)|]; [|discriminate]. cbn in E. injection E as <-. apply I. Qed.

(** When its second is over, the controller asks for the name unless it was told. *)
Theorem c70_request ck l s e c s' : krun l s -> one_clock ck l -> e_clock e = ck -> possible (KTimer c) s = true -> kstep e (KTimer c) s = Ret s' ->
  (told l -> z_out s' = z_out s) /\ (~ told l -> exists t, z_out s' = z_out s ++ [EAsk c t] /\ asks ck t) /\ z_frames s' = z_frames s /\ configured s' = configured s.
Proof.
  intros R C E P H. pose proof C as (CK & _). pose proof (conf_ok _ _ _ R C) as I. pose proof (timer_ok _ _ _ R C) as T. pose proof (step_cases e ck (KTimer c) s s' CK E P H) as S. cbn in P. apply existsb_exists in P. destruct P as (c' & P & PE). apply Nat.eqb_eq in PE. subst c'.
  unfold conf_inv in I. inversion S; subst; match goal with Z : z_ctl s = Some (c, ?k) |- _ => rewrite Z in I; destruct (ti_ctl _ _ T c k Z) as (_ & TD & _); apply TD in P; unfold configured; rewrite Z; cbn end; match goal with D : _ && _ = _ |- _ => rewrite P in D; cbn in D; rewrite D in * end.
  - split; [reflexivity|]. split; [intros N; destruct N; apply I; reflexivity|auto].
  - split; [intros TO; apply (proj2 (proj1 I)) in TO; discriminate|]. split; [eauto|auto].
Qed.
(** No controller asks twice, and the request of the present one is still to come or its second is over. *)
Theorem c70_once ck l s : krun l s -> one_clock ck l -> (forall c, (List.length (requests c (z_out s)) <= 1)%nat) /\ (forall c k, z_ctl s = Some (c, k) -> possible (KTimer c) s = true \/ exists e, In (e, KTimer c) l).
Proof.
  intros R C. pose proof (timer_ok _ _ _ R C) as T. split; [apply T|]. intros c k Z. destruct (ti_ctl _ _ T c k Z) as (_ & _ & [I|F]); [left|right; exact F]. cbn. apply existsb_exists. exists c. split; [exact I|apply Nat.eqb_refl].
Qed.

(** A notification about a buffer there is: one frame with this buffer, its number, address and size, one pointer for everyone registered and nobody else; without anyone the buffer goes back. *)
Theorem c70_frame ck l s e c t b no : krun l s -> one_clock ck l -> e_clock e = ck -> possible (KMessage c t) s = true -> (exists k, z_ctl s = Some (c, k)) -> told l -> ready ck t b no -> 0 <= b ->
  forall s', kstep e (KMessage c t) s = Ret s' -> exists i f who rest, b < ob_num (s_objs (e_shm e) i) /\
    f_ctl f = c /\ f_buf f = b /\ f_no f = no /\ f_addr f = header_size + wrap64 (b * ob_bs (s_objs (e_shm e) i)) /\ f_size f = ob_bs (s_objs (e_shm e) i) /\ f_refs f = List.length who /\
    (exists k j g, z_ctl s = Some (c, k) /\ k_map k = Some (j, g) /\ g_obj g = i /\ f_map f = j) /\ (forall f', In f' (made (z_out s)) -> f_id f' <> f_id f) /\
    NoDup (map fst who) /\ (forall n p, In (n, p) who <-> registered n (rev (map snd l)) = Some p) /\
    z_out s' = z_out s ++ EFrame f :: map (fun p => EQueue (snd p) (f_id f)) who ++ rest /\ configured s' = configured s /\
    (who <> [] -> rest = [] /\ z_frames s' = z_frames s ++ [f]) /\ (who = [] -> (exists u, rest = [EGive c u] /\ frees ck u b (wrap64 no)) /\ z_frames s' = z_frames s).
Proof.
  intros R C E P (k0 & Z0) TO RD B s' H. pose proof C as (CK & _). pose proof (conf_ok _ _ _ R C) as I. pose proof (reg_ok _ _ _ R C) as G. pose proof (fr_ok _ _ _ R C) as FI. pose proof (step_cases e ck _ s s' CK E P H) as S. unfold conf_inv in I. unfold reg_inv in G.
  assert (BB : b < 2 ^ 31) by (destruct RD as (p & _ & _ & X & _); lia).
  assert (W : wrap64 b = b) by (unfold wrap64; apply Z.mod_small; lia). assert (W2 : b mod 2 ^ 32 = b) by (apply Z.mod_small; lia).
  assert (RR : forall b' no', ready ck t b' no' -> b' = b /\ no' = no).
  { intros b' no' RD'. destruct CK as (_ & NONE). apply (ready_is _ _ _ _ NONE) in RD, RD'. destruct RD as (m & M1 & M2 & M3 & M4 & M5 & M6), RD' as (m' & M1' & M2' & M3' & M4' & M5' & M6'). rewrite M1 in M1'. injection M1' as <-. split; congruence. }
  assert (ND : forall (m : smap nat), sm_ok m -> NoDup (map fst m)).
  { induction m as [|(x, y) m IHm]; cbn; intros O; [constructor|]. destruct O as (FA & O). constructor; [|apply IHm, O]. intros IN. apply in_map_iff in IN. destruct IN as ((x', y') & Q & IN). cbn in Q. subst x'. rewrite Forall_forall in FA. specialize (FA _ IN). cbn in FA. rewrite ltb_irrefl in FA. discriminate FA. }
  inversion S as [| | | |c1 t1 k b1 no1 j g a z s1 Z RD1 M A BS K|c1 t1 k b1 no1 j g a z u s1 Z RD1 M A BS K FU|c1 t1 k n g s1 Z CF|c1 t1 k s1 Z NC NR| | | | | | | | | | |]; subst; clear S.
  - destruct (RR _ _ RD1) as (-> & ->). rewrite Z in I, G. destruct G as (SO & G). unfold address in A. unfold buf_size in BS. destruct (g_region g <? header_size); [discriminate|]. rewrite W2 in A. destruct (Z.leb_spec (ob_num (s_objs (e_shm e) (g_obj g))) b) as [|LT]; [discriminate|]. assert (a = header_size + wrap64 (b * ob_bs (s_objs (e_shm e) (g_obj g)))) by congruence. assert (z = ob_bs (s_objs (e_shm e) (g_obj g))) by congruence. subst a z. clear A BS.
    exists (g_obj g), (Frame (z_next s) c j (wrap64 b) no (header_size + wrap64 (b * ob_bs (s_objs (e_shm e) (g_obj g)))) (ob_bs (s_objs (e_shm e) (g_obj g))) (List.length (k_cbs k))), (k_cbs k), []. split; [exact LT|]. rewrite app_nil_r. cbn [z_out set_frames add_out up f_ctl f_buf f_no f_addr f_size f_refs f_map f_id].
    split; [reflexivity|]. split; [exact W|]. split; [reflexivity|]. split; [reflexivity|]. split; [reflexivity|]. split; [reflexivity|]. split; [exists k, j, g; auto|]. split; [intros f' IN; pose proof (fi_next _ _ FI f' IN); lia|]. split; [apply ND, SO|].
    split; [intros n p; rewrite <- G; split; [apply sm_in_get, SO|apply sm_get_in]|]. split; [reflexivity|]. split; [reflexivity|]. split; [auto|intros X; contradiction].
  - destruct (RR _ _ RD1) as (-> & ->). rewrite Z in I, G. destruct G as (SO & G). unfold address in A. unfold buf_size in BS. destruct (g_region g <? header_size); [discriminate|]. rewrite W2 in A. destruct (Z.leb_spec (ob_num (s_objs (e_shm e) (g_obj g))) b) as [|LT]; [discriminate|]. assert (a = header_size + wrap64 (b * ob_bs (s_objs (e_shm e) (g_obj g)))) by congruence. assert (z = ob_bs (s_objs (e_shm e) (g_obj g))) by congruence. subst a z. clear A BS.
    exists (g_obj g), (Frame (z_next s) c j (wrap64 b) no (header_size + wrap64 (b * ob_bs (s_objs (e_shm e) (g_obj g)))) (ob_bs (s_objs (e_shm e) (g_obj g))) 0), [], [EGive c u]. split; [exact LT|]. cbn [z_out set_frames add_out up f_ctl f_buf f_no f_addr f_size f_refs f_map f_id map app].
    split; [reflexivity|]. split; [exact W|]. split; [reflexivity|]. split; [reflexivity|]. split; [reflexivity|]. split; [reflexivity|]. split; [exists k, j, g; auto|]. split; [intros f' IN; pose proof (fi_next _ _ FI f' IN); lia|]. split; [constructor|].
    split; [intros n p; rewrite <- G, K; split; [intros []|discriminate]|]. split; [reflexivity|]. split; [reflexivity|]. split; [contradiction|]. intros _. split; [exists u; split; [reflexivity|rewrite W in FU; exact FU]|reflexivity].
  - destruct (ready_config _ _ _ _ _ RD CF).
  - rewrite Z in I. exfalso. apply (proj1 (proj2 I) (proj2 (proj1 I) TO)). apply NR. eauto.
Qed.
(** Before the name came in, notifications are lost; so is every text that is neither. *)
Theorem c70_ignored ck l s e c t s' : krun l s -> one_clock ck l -> e_clock e = ck -> possible (KMessage c t) s = true -> kstep e (KMessage c t) s = Ret s' -> (forall n, ~ config ck t n) -> ~ told l \/ (forall b no, ~ ready ck t b no) -> s' = s.
Proof.
  intros R C E P H NC X. pose proof C as (CK & _). pose proof (conf_ok _ _ _ R C) as I. pose proof (step_cases e ck _ s s' CK E P H) as S. unfold conf_inv in I.
  inversion S; subst; try reflexivity; try solve [exfalso; match goal with Q : config _ _ _ |- _ => exact (NC _ Q) end];
  (exfalso; destruct X as [X|X]; [|eapply X; eassumption]; match goal with Z : z_ctl s = Some _, M : k_map _ = Some _ |- _ => rewrite Z in I; apply X, (proj1 (proj1 I)), (proj2 (proj2 I)); rewrite M; discriminate end).
Qed.
(** The name of a shared memory that exists: it is mapped, frames and registrations stay. *)
Theorem c70_mapped ck l s e c k t n i : krun l s -> one_clock ck l -> e_clock e = ck -> possible (KMessage c t) s = true -> z_ctl s = Some (c, k) -> config ck t n -> s_names (e_shm e) n = Some i -> ob_size (s_objs (e_shm e) i) <> 0 ->
  exists s' k' j g, kstep e (KMessage c t) s = Ret s' /\ z_ctl s' = Some (c, k') /\ k_map k' = Some (j, g) /\ g_obj g = i /\ g_region g = ob_size (s_objs (e_shm e) i) /\ configured s' = Some true /\ k_cbs k' = k_cbs k /\ z_frames s' = z_frames s /\ z_out s' = z_out s /\
    (forall j' g', k_map k = Some (j', g') -> (j' < z_next s)%nat -> j <> j').
Proof.
  intros R C E P Z CF N O. pose proof C as ((_ & NONE) & _). subst ck. cbn [kstep]. unfold on. rewrite Z, Nat.eqb_refl, (handle_config _ _ _ _ _ _ NONE CF). unfold set_manager, attach. rewrite N. destruct (Z.eqb_spec (ob_size (s_objs (e_shm e) i)) 0); [contradiction|].
  eexists _, _, _, _. split; [reflexivity|]. cbn. repeat (split; [reflexivity|]). intros j' g' _ L. lia.
Qed.

(** Every frame made exists or was given back, and none twice: the releases sent are those of the frames that are gone, each on the channel of its controller and with its buffer. *)
Theorem c70_conserved ck l s : krun l s -> one_clock ck l ->
  NoDup (map f_id (made (z_out s))) /\ exists gone, Permutation (map ident (made (z_out s))) (map ident (z_frames s ++ gone)) /\ returned ck gone (releases (z_out s)) /\ forall f, In f (z_frames s) -> (1 <= f_refs f)%nat.
Proof. intros R C. pose proof (fr_ok _ _ _ R C) as [(gone & P & G) A B D]. split; [exact A|]. exists gone. split; [exact P|]. split; [exact G|]. intros f I. apply D, I. Qed.
(** Dropping a pointer that is not the last sends nothing; dropping the last sends one release with buffer and number. *)
Theorem c70_release ck l s e f x s' : krun l s -> one_clock ck l -> e_clock e = ck -> In x (z_frames s) -> f_id x = f -> kstep e (KDrop f) s = Ret s' ->
  ((2 <= f_refs x)%nat -> z_out s' = z_out s /\ exists x', In x' (z_frames s') /\ ident x' = ident x /\ S (f_refs x') = f_refs x) /\
  (f_refs x = 1%nat -> (exists t, z_out s' = z_out s ++ [EGive (f_ctl x) t] /\ frees ck t (f_buf x) (wrap64 (f_no x))) /\ forall y, In y (z_frames s') <-> In y (z_frames s) /\ f_id y <> f).
Proof.
  intros R C E IN ID H. pose proof C as (CK & _). pose proof (fr_ok _ _ _ R C) as FI. pose proof (fi_nodup _ _ FI) as ND. destruct (fi_refs _ _ FI x IN) as (_ & FB).
  assert (FF : find_frame f s = Some x).
  { subst f. clear - ND IN. unfold find_frame. induction (z_frames s) as [|a q IH]; [destruct IN|]. cbn in *. inversion ND as [|? ? NI ND']; subst. destruct (Nat.eqb_spec (f_id a) (f_id x)) as [Q|Q]; [destruct IN as [->|IN]; [reflexivity|]; destruct NI; rewrite Q; apply in_map, IN|]. destruct IN as [->|IN]; [contradiction|auto]. }
  assert (P : possible (KDrop f) s = true) by (cbn; rewrite FF; reflexivity). pose proof (step_cases e ck _ s s' CK E P H) as S.
  inversion S as [| | | | | | | | | | | | | | |f1 x1 n s1 F1 RE|f1 x1 k t s1 F1 RE Z FR| |]; subst; clear S; rewrite FF in F1; injection F1 as <-.
  - split; [|intros Q; rewrite Q in RE; discriminate]. intros _. split; [reflexivity|]. exists (with_refs (S n) x). split; [|split; [reflexivity|cbn; congruence]]. cbn [z_frames put_frame set_frames]. apply in_map_iff. exists x. split; [|exact IN]. cbn. rewrite Nat.eqb_refl. reflexivity.
  - split; [intros Q; exfalso; lia|]. intros _. split; [exists t; split; [reflexivity|apply FR, FB]|]. intros y. cbn [z_frames add_out del_frame set_frames]. rewrite filter_In. destruct (Nat.eqb_spec (f_id y) (f_id x)); cbn; split; intros (A & B); split; auto; try discriminate; contradiction.
Qed.

(** Careful use has no undefined behaviour. *)
Theorem c70_safe_partial ck objs l s e o : clock_ok ck -> roomy objs -> careful_run ck objs l s -> possible o s = true -> careful ck o s -> e_clock e = ck -> (forall i, s_objs (e_shm e) i = objs i) -> kstep e o s <> Undef.
Proof. apply careful_defined. Qed.

(** ** With the frame receiver *)
Lemma rcv_parse v t m s : msg_of_text (RcvModel.v_clock v) t true = Ret m -> exists j, parse t = Some j /\ RcvModel.parse v (parse t) true s = (s, Ret m).
Proof. unfold msg_of_text, RcvModel.parse, RcvModel.lift. destruct (parse t) as [j|]; [|discriminate]. intros ->. eauto. Qed.
Lemma same_message c t u a b p : parse t = parse u -> message c t a b p -> message c u a b p.
Proof. intros E (x & q). exists x. rewrite <- E. exact q. Qed.
(** A request is answered with the name. *)
Theorem c70_answer ck v t r : clock_ok ck -> RcvModel.v_clock v = ck -> asks ck t -> no_nul (RcvModel.s_shm (RcvModel.c_cfg r)) ->
  exists d r', RcvModel.step v (RcvModel.Release (parse t)) r = (r', Ret tt) /\ RcvModel.c_out r' = RcvModel.c_out r ++ [RcvModel.FPublish d] /\ parse (fst (emit d)) = Some d /\ forall u, parse u = Some d -> config ck u (RcvModel.s_shm (RcvModel.c_cfg r)).
Proof.
  intros CK <- (p & M) NN. pose proof CK as (_ & NONE). apply (message_is _ _ TCmd VBufferConfigRequest p NONE) in M; try discriminate. destruct M as ((m & E & T & V & _) & _).
  destruct (rcv_parse v t m r E) as (j & PJ & RP). set (n := RcvModel.s_shm (RcvModel.c_cfg r)) in *.
  destruct (sent_text (RcvModel.v_clock v) (RcvModel.v_now v) TNotify VBufferConfig [("shared_buffer_name", JStr n)] CK) as (u & U & MU & PU); try discriminate; [intros k y [I|[]]; injection I as <- <-; right; eauto|].
  set (d := JObj [("params", JObj [("shared_buffer_name", JStr n)]); ("msg_type", JStr (name_of_type TNotify)); ("msg_val", JStr (name_of_val VBufferConfig)); ("id", JInt 0); ("timestamp", JStr (time_text (RcvModel.v_clock v) (Some (RcvModel.v_now v))))]) in *.
  exists d, (RcvModel.w_c_out (RcvModel.c_out r ++ [RcvModel.FPublish d]) r).
  assert (EN : encode (RcvModel.v_clock v) (Msg true [("params", JObj [("shared_buffer_name", JStr n)])] TNotify VBufferConfig (Some 0) (Some (RcvModel.v_now v))) = match d with JObj l => Ret l | _ => Undef end) by (unfold encode; cbn [g_id g_time g_val g_type g_doc]; rewrite (cstr_id _ (proj1 (proj1 CK _))); reflexivity).
  split.
  - cbn [RcvModel.step]. unfold RcvModel.handle_release, RcvModel.attempt. unfold RcvModel.seq at 1. rewrite RP, PJ. rewrite T, V. unfold RcvModel.notify_buffer_config. unfold RcvModel.seq at 1. unfold RcvModel.setting, RcvModel.get. fold n. unfold RcvModel.seq at 1.
    unfold RcvModel.make.
    assert (SP : set_param (new_msg TNotify VBufferConfig true (RcvModel.v_now v)) "shared_buffer_name" (XStr n) = (Msg true [("params", JObj [("shared_buffer_name", JStr n)])] TNotify VBufferConfig (Some 0) (Some (RcvModel.v_now v)), Ret tt)).
    { transitivity (Msg true [("params", JObj [("shared_buffer_name", JStr (cstr n))])] TNotify VBufferConfig (Some 0) (Some (RcvModel.v_now v)), @Ret ipcexc unit tt); [reflexivity|]. rewrite (cstr_id n NN). reflexivity. }
    rewrite SP. unfold RcvModel.lift, RcvModel.seq. rewrite EN. reflexivity.
  - split; [reflexivity|]. split.
    + unfold encode_text in U. rewrite EN in U. cbn in U. injection U as <-. exact PU.
    + intros w W. exists (JObj [("shared_buffer_name", JStr n)]), n. split; [eapply same_message; [|exact MU]; congruence|]. split; [apply leads1; eexists; split; reflexivity|split; [exact NN|auto]].
Qed.
(** The notification of the receiver thread reaches the frame processor with the same buffer and number. *)
Theorem c70_notified ck v e i b no t r : clock_ok ck -> RcvModel.v_clock v = ck -> e_clock e = ck -> - 2 ^ 31 <= b < 2 ^ 31 -> b <> -1 -> - 2 ^ 31 <= no < 2 ^ 31 -> frame_ready e b no = Ret t ->
  exists d r', RcvModel.step v (RcvModel.FromRx i (parse t)) r = (r', Ret tt) /\ RcvModel.c_out r' = RcvModel.c_out r ++ [RcvModel.FPublish d] /\ parse t = Some d /\ forall u, parse u = Some d -> ready ck u b no.
Proof.
  intros CK V1 V2 B NB F H. pose proof CK as (_ & NONE). rewrite <- V2 in CK. destruct (text_ready e b no CK B NB F) as (t' & H' & R). rewrite H in H'. injection H' as <-. rewrite V2 in R. pose proof (proj1 (ready_is _ _ _ _ NONE) R) as (m & E & T & V & _).
  rewrite <- V1 in E. destruct (rcv_parse v t m r E) as (j & PJ & RP). exists j, (RcvModel.w_c_received ((RcvModel.c_received r + 1) mod 2 ^ 32) (RcvModel.w_c_out (RcvModel.c_out r ++ [RcvModel.FPublish j]) r)). split.
  - cbn [RcvModel.step]. unfold RcvModel.handle_rx, RcvModel.attempt. unfold RcvModel.seq at 1. rewrite RP, PJ, T, V. reflexivity.
  - split; [reflexivity|]. split; [exact PJ|]. intros u U. destruct R as (p & M & R). exists p. split; [eapply same_message; [|exact M]; congruence|exact R].
Qed.
(** A release reaches the receiver thread with the buffer. *)
Theorem c70_returned ck v b no t r : clock_ok ck -> RcvModel.v_clock v = ck -> frees ck t b no -> 0 <= b < 2 ^ 31 ->
  exists d r' rest, RcvModel.step v (RcvModel.Release (parse t)) r = (r', Ret tt) /\ RcvModel.c_out r' = RcvModel.c_out r ++ RcvModel.FToRx (RcvModel.c_ident r) d :: rest /\ (rest = [] \/ rest = [RcvModel.FStop]) /\ parse t = Some d /\
    RcvModel.c_released r' = (RcvModel.c_released r + 1) mod 2 ^ 32 /\ forall u, parse u = Some d -> taken_back ck u = Some b.
Proof.
  intros CK <- (p & M & LB & LF) B. pose proof CK as (_ & NONE). assert (M0 := M). apply (message_is _ _ TNotify VFrameRelease p NONE) in M; try discriminate. destruct M as ((m & E & T & V & PM) & (ps & ->)).
  destruct (rcv_parse v t m r E) as (j & PJ & RP).
  assert (TB : forall u, parse u = Some j -> taken_back (RcvModel.v_clock v) u = Some b).
  { intros u U. unfold taken_back. assert (EU : msg_of_text (RcvModel.v_clock v) u true = Ret m) by (unfold msg_of_text in *; rewrite U; rewrite PJ in E; exact E). rewrite EU, T, V.
    rewrite (proj2 (int_param m ps "buffer_id" (-1) PM ltac:(intros X; repeat (destruct X as [X|X]; [discriminate X|]); exact X) b)); [destruct (Z.eqb_spec b (-1)); [lia|reflexivity]|]. left. exists b. split; [exact LB|lia]. }
  set (r1 := RcvModel.w_c_released ((RcvModel.c_released r + 1) mod 2 ^ 32) (RcvModel.w_c_out (RcvModel.c_out r ++ [RcvModel.FToRx (RcvModel.c_ident r) j]) r)).
  set (b0 := negb (RcvModel.s_frames (RcvModel.c_cfg r) =? 0) && (RcvModel.s_frames (RcvModel.c_cfg r) <=? (RcvModel.c_released r + 1) mod 2 ^ 32)).
  exists j, (if b0 then RcvModel.w_c_out (RcvModel.c_out r1 ++ [RcvModel.FStop]) r1 else r1), (if b0 then [RcvModel.FStop] else []). split.
  - cbn [RcvModel.step]. unfold RcvModel.handle_release, RcvModel.attempt. unfold RcvModel.seq at 1. rewrite RP, PJ, T, V. unfold r1. destruct b0 eqn:B0; unfold b0 in B0; cbv beta iota zeta delta [RcvModel.seq RcvModel.get RcvModel.setting RcvModel.emit RcvModel.change RcvModel.when RcvModel.c_released RcvModel.w_c_released RcvModel.w_c_out RcvModel.c_cfg RcvModel.c_out RcvModel.s_frames] in B0 |- *; rewrite B0; reflexivity.
  - split; [destruct b0; cbn; rewrite <- ?app_assoc; reflexivity|]. split; [destruct b0; auto|]. split; [exact PJ|]. split; [destruct b0; reflexivity|exact TB].
Qed.

(** The two together: the request of the frame processor, the answer of the receiver, the mapping *)
Theorem c70_handshake ck l s e c k s1 v r e2 i : krun l s -> one_clock ck l -> e_clock e = ck -> e_clock e2 = ck -> RcvModel.v_clock v = ck -> possible (KTimer c) s = true -> z_ctl s = Some (c, k) -> z_poll s = Some c -> ~ told l -> kstep e (KTimer c) s = Ret s1 ->
  no_nul (RcvModel.s_shm (RcvModel.c_cfg r)) -> s_names (e_shm e2) (RcvModel.s_shm (RcvModel.c_cfg r)) = Some i -> ob_size (s_objs (e_shm e2) i) <> 0 ->
  exists t d r', z_out s1 = z_out s ++ [EAsk c t] /\ RcvModel.step v (RcvModel.Release (parse t)) r = (r', Ret tt) /\ RcvModel.c_out r' = RcvModel.c_out r ++ [RcvModel.FPublish d] /\
    exists s2, kstep e2 (KMessage c (fst (emit d))) s1 = Ret s2 /\ configured s2 = Some true /\ exists k' j g, z_ctl s2 = Some (c, k') /\ k_map k' = Some (j, g) /\ g_obj g = i.
Proof.
  intros R C E E2 EV P Z PO NT H NN SN OS. pose proof C as (CK & _). destruct (c70_request ck l s e c s1 R C E P H) as (_ & RQ & _ & _). destruct (RQ NT) as (t & O & A).
  destruct (c70_answer ck v t r CK EV A NN) as (d & r' & ST & OUT & EM & CF). exists t, d, r'. split; [exact O|]. split; [exact ST|]. split; [exact OUT|].
  assert (R1 : krun (l ++ [(e, KTimer c)]) s1) by (econstructor; eassumption).
  assert (C1 : one_clock ck (l ++ [(e, KTimer c)])) by (split; [exact CK|]; intros e' o' I; apply in_app_or in I; destruct I as [I|[[= <- <-]|[]]]; [apply C in I; exact I|exact E]).
  assert (Z1 : z_poll s1 = Some c /\ exists k1, z_ctl s1 = Some (c, k1)) by (pose proof (step_cases e ck _ s s1 CK E P H) as S; inversion S; subst; cbn; split; [exact PO|eauto|exact PO|eauto]). destruct Z1 as (PO1 & k1 & Z1).
  assert (P1 : possible (KMessage c (fst (emit d))) s1 = true) by (cbn; rewrite PO1; apply Nat.eqb_refl).
  destruct (c70_mapped ck _ s1 e2 c k1 (fst (emit d)) _ i R1 C1 E2 P1 Z1 (CF _ EM) SN OS) as (s2 & k' & j & g & H2 & Z2 & M2 & G2 & _ & CO & _). exists s2. split; [exact H2|]. split; [exact CO|]. exists k', j, g. auto.
Qed.

(** ** Cases *)
Fixpoint run_ops (l : list (env * op)) (s : smc) : option smc := match l with [] => Some s | (e, o) :: r => if possible o s then match kstep e o s with Ret s' => run_ops r s' | _ => None end else None end.
Lemma run_ops_run l : forall l0 s0 s, krun l0 s0 -> run_ops l s0 = Some s -> krun (l0 ++ l) s.
Proof.
  induction l as [|(e, o) l IH]; intros l0 s0 s R H; cbn in H; [injection H as <-; rewrite app_nil_r; exact R|]. destruct (possible o s0) eqn:P; [|discriminate]. destruct (kstep e o s0) as [s1| |] eqn:K; try discriminate.
  replace (l0 ++ (e, o) :: l) with ((l0 ++ [(e, o)]) ++ l) by (rewrite <- app_assoc; reflexivity). apply (IH _ s1); [econstructor; eassumption|exact H].
Qed.
(** A clock that reads what it writes *)
Fixpoint pos_text (p : positive) : string := match p with xH => "" | xO q => String "0" (pos_text q) | xI q => String "1" (pos_text q) end.
Fixpoint text_pos (s : string) : option positive := match s with "" => Some xH | String a r => match text_pos r with Some q => if Ascii.eqb a "0" then Some (xO q) else if Ascii.eqb a "1" then Some (xI q) else None | None => None end end.
Definition bin_clock : clock := Clock (fun t => match t with None => "not-a-date-time" | Some Z0 => "z" | Some (Zpos p) => String "p" (pos_text p) | Some (Zneg p) => String "n" (pos_text p) end)
  (fun s => match s with String "z" "" => Some 0 | String "p" r => option_map Zpos (text_pos r) | String "n" r => option_map Zneg (text_pos r) | _ => None end).
Lemma bin_ok : clock_ok bin_clock.
Proof.
  assert (T : forall p, text_pos (pos_text p) = Some p) by (induction p as [p IH|p IH|]; cbn; rewrite ?IH; reflexivity).
  assert (N : forall p, no_nul (pos_text p)) by (unfold no_nul; induction p as [p IH|p IH|]; cbn; [intros [X|X]; [discriminate X|exact (IH X)]..|intros []]).
  split; [|reflexivity]. intros [|p|p]; cbn; rewrite ?T; (split; [|reflexivity]); unfold no_nul; cbn; (intros [X|X]; [discriminate X|]); try exact (N p X). destruct X.
Qed.
Definition objs0 : nat -> obj := fun i => match i with O => Obj 40 1 2 8 | _ => Obj 0 0 0 0 end.
Definition e0 : env := Env (Shm (fun n => if String.eqb n "buf" then Some O else None) objs0 1 1) 5 bin_clock.
Definition got (o : outcome ipcexc (list ascii)) : list ascii := match o with Ret t => t | _ => [] end.
Definition t_config : list ascii := got (text e0 TNotify VBufferConfig [("shared_buffer_name", XStr "buf")]).
Definition t_other : list ascii := got (text e0 TNotify VBufferConfig [("shared_buffer_name", XStr "tub")]).
Definition t_ready (b no : Z) : list ascii := got (frame_ready e0 b no).
Definition ops (l : list op) : list (env * op) := map (fun o => (e0, o)) l.
Lemma ops_clock l : one_clock bin_clock (ops l).
Proof. split; [apply bin_ok|]. intros e o I. apply in_map_iff in I. destruct I as (o' & [= <- <-] & _). reflexivity. Qed.
Lemma ops_run l s : run_ops (ops l) smc_init = Some s -> krun (ops l) s.
Proof. intros H. apply (run_ops_run (ops l) [] smc_init s); [constructor|exact H]. Qed.
Definition started : list op := [KSetup Both; KPoll; KRegister "a" 7; KRegister "b" 8; KRegister "a" 9].
Definition at_work : list op := started ++ [KTimer 0; KMessage 0 t_config; KMessage 0 (t_ready 1 5)].
(** Asked, mapped, a frame on two queues, read and given back *)
Example c70_case : exists s f t u, krun (ops (at_work ++ [KRead 2; KDrop 2; KNumber 2 6; KDrop 2])) s /\ z_out s = [EAsk 0 t; EFrame f; EQueue 7 2; EQueue 8 2; EGive 0 u] /\ f_buf f = 1 /\ f_addr f = 32 /\ f_size f = 8 /\ f_no f = 5 /\
  configured s = Some true /\ z_frames s = [] /\ taken_back bin_clock u = Some 1.
Proof. eexists _, _, _, _. split; [apply ops_run; vm_compute; reflexivity|]. split; [cbn [z_out]; reflexivity|]. repeat (split; [vm_compute; reflexivity|]). vm_compute. reflexivity. Qed.
Example c70_texts : config bin_clock t_config "buf" /\ ready bin_clock (t_ready 1 5) 1 5 /\ told (ops at_work) /\ ~ told (ops started).
Proof.
  assert (C : config bin_clock t_config "buf") by (apply config_is; [reflexivity|]; eexists; split; [vm_compute; reflexivity|vm_compute; repeat split]).
  split; [exact C|]. split; [apply ready_is; [reflexivity|]; eexists; split; [vm_compute; reflexivity|vm_compute; repeat split; discriminate]|]. split.
  - exists (ops (started ++ [KTimer 0])), e0, 0%nat, t_config, "buf", (ops [KMessage 0 (t_ready 1 5)]). split; [reflexivity|]. split; [exact C|]. intros e o [[= <- <-]|[]]. split; [discriminate|]. intros x X. discriminate X.
  - intros (l1 & e & c & t & n & l2 & E & _). assert (I : In (KMessage c t) started) by (replace started with (map snd (ops started)) by reflexivity; rewrite E, map_app; apply in_or_app; right; left; reflexivity). cbn in I. repeat (destruct I as [I|I]; [discriminate I|]). exact I.
Qed.
(** Nobody registered: the buffer goes back at once. *)
Example c70_nobody : exists s f u, krun (ops [KSetup Both; KPoll; KMessage 0 t_config; KMessage 0 (t_ready 0 3)]) s /\ z_out s = [EFrame f; EGive 0 u] /\ z_frames s = [] /\ taken_back bin_clock u = Some 0.
Proof. eexists _, _, _. split; [apply ops_run; vm_compute; reflexivity|]. split; [cbn [z_out]; reflexivity|]. repeat (split; [vm_compute; reflexivity|]). vm_compute. reflexivity. Qed.
Lemma roomy0 : roomy objs0. Proof. intros [|i]; cbn; [change header_size with 24; lia|intros X; contradiction]. Qed.
Definition nobody_out {A} (l : list A) : bool := match l with [] => true | _ => false end.
Definition careful_now (o : op) (s : smc) : bool :=
  match o with
  | KSetup SecondFails => false
  | KSetup _ | KClose => nobody_out (z_frames s) && nobody_out (z_timers s)
  | KMessage c _ => match z_ctl s with Some (d, _) => Nat.eqb c d && nobody_out (z_frames s) | None => false end
  | _ => true
  end.
Lemma careful_now_ok ck o s : careful_now o s = true -> careful ck o s.
Proof.
  assert (N : forall A (l : list A), nobody_out l = true -> l = []) by (intros A [|]; [reflexivity|discriminate]).
  destruct o as [x| | |c t| | | | | | | |]; cbn; try (intros _; exact Logic.I).
  - destruct x; try discriminate; intros H; apply andb_prop in H; destruct H as (H1 & H2); (split; [discriminate|auto]).
  - intros H; apply andb_prop in H; destruct H as (H1 & H2); auto.
  - destruct (z_ctl s) as [(d, k)|]; [|discriminate]. intros H; apply andb_prop in H; destruct H as (H1 & H2). apply Nat.eqb_eq in H1. subst d. eauto.
Qed.
Fixpoint run_careful (l : list op) (s : smc) : option smc := match l with [] => Some s | o :: r => if possible o s && careful_now o s then match kstep e0 o s with Ret s' => run_careful r s' | _ => None end else None end.
Lemma careful_ops l : forall l0 s0 s, careful_run bin_clock objs0 l0 s0 -> run_careful l s0 = Some s -> careful_run bin_clock objs0 (l0 ++ ops l) s.
Proof.
  induction l as [|o l IH]; intros l0 s0 s R H; cbn in H; [injection H as <-; rewrite app_nil_r; exact R|]. destruct (possible o s0) eqn:P; [|discriminate]. destruct (careful_now o s0) eqn:CA; [|discriminate]. destruct (kstep e0 o s0) as [s1| |] eqn:K; try discriminate.
  cbn [ops map]. change (map (fun o => (e0, o)) l) with (ops l). replace (l0 ++ (e0, o) :: ops l) with ((l0 ++ [(e0, o)]) ++ ops l) by (rewrite <- app_assoc; reflexivity). apply (IH _ s1); [|exact H].
  econstructor; [exact R|exact P|apply careful_now_ok, CA|reflexivity|reflexivity|exact K].
Qed.
Example c70_careful : exists s, careful_run bin_clock objs0 (ops at_work) s /\ z_frames s <> [] /\ possible (KRead 2) s = true /\ careful bin_clock (KRead 2) s.
Proof.
  eexists. split; [apply (careful_ops at_work [] smc_init); [constructor|vm_compute; reflexivity]|split; [discriminate|split; [reflexivity|exact Logic.I]]].
Qed.

(** ** Without care *)
(** The name comes again while a frame is in use: its data are gone. *)
Theorem c70_remapped_refuted : exists l s, krun l s /\ one_clock bin_clock l /\ possible (KRead 2) s = true /\ kstep e0 (KRead 2) s = Undef /\ exists l1, l = l1 ++ [(e0, KMessage 0 t_config)].
Proof. exists (ops (at_work ++ [KMessage 0 t_config])). eexists. split; [apply ops_run; vm_compute; reflexivity|]. split; [apply ops_clock|]. split; [reflexivity|]. split; [reflexivity|]. exists (ops at_work). reflexivity. Qed.
(** The connections change while a frame is in use: its release goes over a channel that is gone. *)
Theorem c70_replaced_refuted : exists l s x, krun l s /\ one_clock bin_clock l /\ In x (z_frames s) /\ f_refs x = 1%nat /\ kstep e0 (KDrop (f_id x)) s = Undef /\ exists l1, l = l1 ++ [(e0, KSetup Both)].
Proof. exists (ops (at_work ++ [KDrop 2; KSetup Both])). eexists _, _. split; [apply ops_run; vm_compute; reflexivity|]. split; [apply ops_clock|]. split; [left; reflexivity|]. split; [reflexivity|]. split; [reflexivity|]. exists (ops (at_work ++ [KDrop 2])). reflexivity. Qed.
(** They change within the second of the deferred request: the reactor calls an object that is gone. *)
Theorem c70_deferred_refuted : exists l s, krun l s /\ one_clock bin_clock l /\ possible (KTimer 0) s = true /\ kstep e0 (KTimer 0) s = Undef /\ l = ops [KSetup Both; KSetup Both].
Proof. exists (ops [KSetup Both; KSetup Both]). eexists. split; [apply ops_run; vm_compute; reflexivity|]. split; [apply ops_clock|]. repeat split. Qed.
(** The second connect fails: the reactor keeps a channel that is gone. *)
Theorem c70_ghost_refuted : exists l s, krun l s /\ one_clock bin_clock l /\ kstep e0 KPoll s = Undef /\ l = ops [KSetup SecondFails].
Proof. exists (ops [KSetup SecondFails]). eexists. split; [apply ops_run; vm_compute; reflexivity|]. split; [apply ops_clock|]. repeat split. Qed.
(** They change in a round of the reactor in which the old channel has a message. *)
Theorem c70_stale_refuted : forall t, exists l s, krun l s /\ one_clock bin_clock l /\ possible (KMessage 0 t) s = true /\ kstep e0 (KMessage 0 t) s = Undef /\ l = ops [KSetup Both; KPoll; KSetup Both].
Proof. intros t. exists (ops [KSetup Both; KPoll; KSetup Both]). eexists. split; [apply ops_run; vm_compute; reflexivity|]. split; [apply ops_clock|]. repeat split. Qed.
(** A name of no shared memory, or a buffer there is not, end the process. *)
Theorem c70_ends_refuted : exists l s, krun l s /\ one_clock bin_clock l /\ kstep e0 (KMessage 0 t_other) s = Throw (KShm EMap) /\ kstep e0 (KMessage 0 (t_ready 2 6)) s = Throw (KShm EIndex) /\ config bin_clock t_other "tub" /\ ready bin_clock (t_ready 2 6) 2 6.
Proof.
  exists (ops at_work). eexists. split; [apply ops_run; vm_compute; reflexivity|]. split; [apply ops_clock|]. split; [vm_compute; reflexivity|]. split; [vm_compute; reflexivity|].
  split; [apply config_is; [reflexivity|]; eexists; split; [vm_compute; reflexivity|vm_compute; repeat split]|apply ready_is; [reflexivity|]; eexists; split; [vm_compute; reflexivity|vm_compute; repeat split; discriminate]].
Qed.
(** A notification that comes before the name: the buffer is never given back. *)
Theorem c70_lost_refuted : exists l s, krun l s /\ one_clock bin_clock l /\ ready bin_clock (t_ready 1 5) 1 5 /\ In (e0, KMessage 0 (t_ready 1 5)) l /\ configured s = Some true /\ made (z_out s) = [] /\ releases (z_out s) = [].
Proof.
  exists (ops (started ++ [KMessage 0 (t_ready 1 5); KMessage 0 t_config])). eexists. split; [apply ops_run; vm_compute; reflexivity|]. split; [apply ops_clock|]. split; [apply c70_texts|]. split; [do 5 right; left; reflexivity|]. split; [reflexivity|]. split; reflexivity.
Qed.

Print Assumptions c70_status.
Print Assumptions c70_request.
Print Assumptions c70_once.
Print Assumptions c70_frame.
Print Assumptions c70_ignored.
Print Assumptions c70_mapped.
Print Assumptions c70_conserved.
Print Assumptions c70_release.
Print Assumptions c70_safe_partial.
Print Assumptions c70_answer.
Print Assumptions c70_notified.
Print Assumptions c70_returned.
Print Assumptions c70_handshake.
Print Assumptions c70_remapped_refuted.
Print Assumptions c70_replaced_refuted.
Print Assumptions c70_deferred_refuted.
Print Assumptions c70_ghost_refuted.
Print Assumptions c70_stale_refuted.
Print Assumptions c70_ends_refuted.
Print Assumptions c70_lost_refuted.
