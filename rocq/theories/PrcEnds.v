(** Stored configurations with ranks end, at the same result for every stack that is large enough. *)
From Coq Require Import String Ascii.
From Verif Require Import Base StrOrder PluginModel CtrlModel JsonModel JsonSpec JsonProofs JsonTextProofs MessageProps JsonReadModel JsonReadValue JsonDoubleModel JsonDoubleProofs JsonRoundSpec JsonRound JsonReadProps JsonMachineProps PrcModel PrcSpec PrcProofs PrcMoves PrcExec.
Local Open Scope string_scope.
Local Open Scope list_scope.

(** ** Documents that differ in doubles *)
Lemma like_find R n l l' y' : members_like R l l' -> find_member n l' = Some y' -> exists y, find_member n l = Some y /\ like R y y'.
Proof. induction 1 as [|k x y l l' L ML IH]; cbn; [discriminate|]. destruct (String.eqb k n); [|exact IH]. intros H. injection H as <-. eauto. Qed.
Lemma like_path R c : forall x x' y', like R x x' -> at_path c x' = Some y' -> exists y, at_path c x = Some y /\ like R y y'.
Proof.
  induction c as [|n c IH]; intros x x' y' L; cbn; [intros H; injection H as <-; eauto|]. destruct x' as [| | | | | |l']; try discriminate. inversion L as [| | | | | |l ? ML]; subst. destruct (find_member n l') as [z'|] eqn:F; [|discriminate]. destruct (like_find R n l l' z' ML F) as (z & -> & LZ). apply IH, LZ.
Qed.
Lemma like_in R l l' : all_like R l l' -> forall z', In z' l' -> exists z, In z l /\ like R z z'.
Proof. induction 1 as [|x y l l' L AL IH]; intros z' I; [destruct I|]. destruct I as [<-|I]; [exists x; cbn; auto|]. destruct (IH z' I) as (z & Z & LZ). exists z. cbn. auto. Qed.
Lemma like_message R y y' z' : like R y y' -> message_in z' y' -> exists z, message_in z y /\ like R z z'.
Proof.
  intros L (l' & M & I). destruct M as [-> |(-> & N)].
  - inversion L as [| | | | |l ? AL|]; subst. destruct (like_in R l l' AL z' I) as (z & Z & LZ). exists z. split; [|exact LZ]. exists l. split; [left; reflexivity|exact Z].
  - destruct I as [<-|[]]. exists y. split; [|exact L]. exists [y]. split; [right; split; [reflexivity|]|left; reflexivity]. intros k ->. inversion L; subst. eapply N. reflexivity.
Qed.
Lemma like_ranked R r b x : ranked r b x -> forall x', like R x x' -> ranked r b x'.
Proof.
  induction 1 as [b x E S IH]. intros x' L. constructor.
  - intros i H. apply leads_at in H. destruct (like_path R _ _ _ _ L H) as (y & Y & LY). inversion LY; subst. apply E, leads_at, Y.
  - intros i y' z' H1 H2 M. apply leads_at in H1, H2. destruct (like_path R _ _ _ _ L H1) as (j & J & LJ). inversion LJ; subst. destruct (like_path R _ _ _ _ L H2) as (y & Y & LY). destruct (like_message R y y' z' LY M) as (z & Z & LZ).
    eapply IH; [apply leads_at, J|apply leads_at, Y|exact Z|exact LZ].
Qed.
Lemma null_ranked r b : ranked r b JNull. Proof. constructor; intros i; [intros H|intros y z H]; apply leads_at in H; discriminate. Qed.
Lemma ranked_le r b b' x : ranked r b x -> b <= b' -> ranked r b' x. Proof. intros H L. inversion H as [? ? E S]; subst. constructor; [intros i I; specialize (E i I); lia|exact S]. Qed.

(** ** What is written and read again *)
Lemma no_zero_written x : machine x -> ~ In Ascii.zero (fst (emit x)).
Proof. intros M. apply nz_not_in, nz_emit. intros b O. destruct (M _ O) as (MD & _). apply MD. reflexivity. Qed.
Lemma some_double x : (exists b, occurs (JDouble b) x /\ no_number b) \/ (machine x -> forall b, occurs (JDouble b) x -> ~ no_number b).
Proof.
  induction x as [x NA NO|l IH|l IH] using json_all.
  - destruct x as [|b|z|b|s|l|l]; try (right; intros _ b' O; inversion O; fail); [|destruct (NA l eq_refl)|destruct (NO l eq_refl)].
    destruct (finite b) eqn:F; [right|].
    + intros M b' O. inversion O; subst. intros (s & f & E & S & FR). unfold finite, exponent in F. apply Bool.negb_true_iff, Z.eqb_neq in F. apply F. subst b. clear -S FR. destruct S as [-> | ->].
      * replace (0 * 2 ^ 63 + 2047 * 2 ^ 52 + f)%Z with (f + 2047 * 2 ^ 52)%Z by ring. rewrite Z.div_add, Z.div_small by lia. reflexivity.
      * replace (1 * 2 ^ 63 + 2047 * 2 ^ 52 + f)%Z with (f + (2048 + 2047) * 2 ^ 52)%Z by ring. rewrite Z.div_add, Z.div_small by lia. reflexivity.
    + destruct (Z_le_dec 0 b) as [L|N]; [destruct (Z_lt_dec b (2 ^ 64)) as [L2|N]|].
      * left. exists b. split; [constructor|]. apply finite_spec; [lia|exact F].
      * right. intros M. destruct (M (JDouble b) (oc_here _)) as (MD & _). specialize (MD b eq_refl). lia.
      * right. intros M. destruct (M (JDouble b) (oc_here _)) as (MD & _). specialize (MD b eq_refl). lia.
  - assert (D : (exists y, In y l /\ exists b, occurs (JDouble b) y /\ no_number b) \/ (forall y, In y l -> machine y -> forall b, occurs (JDouble b) y -> ~ no_number b)).
    { clear -IH. induction l as [|y l IHl]; [right; intros y []|]. destruct (IH y (or_introl eq_refl)) as [H|H]; [left; exists y; cbn; auto|]. destruct IHl as [(z & I & Z)|N]; [intros z Z; apply IH; right; exact Z|left; exists z; cbn; auto|]. right. intros z [<-|I]; [exact H|apply N, I]. }
    destruct D as [(y & I & b & O & N)|N]; [left; exists b; split; [eapply oc_arr; eassumption|exact N]|]. right. intros M b O. inversion O; subst. eapply N; [eassumption| |eassumption]. intros w OW. apply M. eapply oc_arr; eassumption.
  - assert (D : (exists n y, In (n, y) l /\ exists b, occurs (JDouble b) y /\ no_number b) \/ (forall n y, In (n, y) l -> machine y -> forall b, occurs (JDouble b) y -> ~ no_number b)).
    { clear -IH. induction l as [|(n, y) l IHl]; [right; intros n y []|]. destruct (IH n y (or_introl eq_refl)) as [H|H]; [left; exists n, y; cbn; auto|]. destruct IHl as [(k & z & I & Z)|N]; [intros k z Z; apply (IH k); right; exact Z|left; exists k, z; cbn; auto|]. right. intros k z [E|I]; [injection E as <- <-; exact H|apply (N k), I]. }
    destruct D as [(n & y & I & b & O & N)|N]; [left; exists b; split; [eapply oc_obj; eassumption|exact N]|]. right. intros M b O. inversion O; subst. eapply N; [eassumption| |eassumption]. intros w OW. apply M. eapply oc_obj; eassumption.
Qed.
(** What a stored value is executed as: the messages in it but for doubles, or one null. *)
Lemma stored_again y z : machine y -> In z (stored_messages (cut (fst (emit y)))) -> z = JNull \/ exists z0, message_in z0 y /\ like read_back z0 z.
Proof.
  intros M. unfold stored_messages. rewrite parse_cut. destruct (some_double y) as [(b & O & N)|N].
  - destruct (c55_no_number_refuted y b M O N) as (_ & ->). intros [<-|[]]. auto.
  - destruct (c55_written y M (N M)) as (y' & _ & -> & L). intros I. right. apply (like_message read_back y y' z L). destruct y'; try (exists [z]; destruct I as [<-|[]]; split; [right; split; [reflexivity|discriminate]|left; reflexivity]). exists l. split; [left; reflexivity|exact I].
Qed.

Section Ends.
  Context {P : Type}.
  Variable v : env P.
  Notation M := (M P).
  Notation st := (prc P).
  Definition settings (m : msg) : M unit := set_master m ;; clear_errors v m ;; set_frames m ;; inject m ;; set_debug m ;; set_ctrl v m ;; set_meta v m ;; set_plugin v m ;; set_receiver v m.
  Lemma once_eq self m s : configure_once v self m s = (settings m ;; store v m ;; run_stored v self m ;; pass_on v m) s.
  Proof. unfold configure_once, settings, seq. repeat match goal with |- context [let '(_, _) := ?a in _] => destruct a as (?, [?|?|]); [|reflexivity..] end. reflexivity. Qed.

  (** ** A deeper stack changes nothing but running out of it *)
  Definition below {A} (a b : M A) : Prop := forall s, snd (a s) = Throw PDeep \/ a s = b s.
  Lemma below_refl {A} (a : M A) : below a a. Proof. intros s. auto. Qed.
  Lemma below_seq {A B} (a a' : M A) (f f' : A -> M B) : below a a' -> (forall x, below (f x) (f' x)) -> below (seq a f) (seq a' f').
  Proof. intros Ha Hf s. unfold seq. destruct (Ha s) as [H| <-]; destruct (a s) as (s1, o); [cbn in H; subst; left; reflexivity|]. destruct o; auto. apply Hf. Qed.
  Lemma below_each {A} (l : list A) f f' : (forall x, below (f x) (f' x)) -> below (each l f) (each l f').
  Proof. intros H. induction l as [|x l IH]; [apply below_refl|]. cbn. apply below_seq; [apply H|intros _; exact IH]. Qed.
  Lemma below_when b a a' : below a a' -> below (when b a) (when b a'). Proof. intros H. destruct b; [exact H|apply below_refl]. Qed.
  Lemma below_once self self' m : (forall x, below (self x) (self' x)) -> below (configure_once v self m) (configure_once v self' m).
  Proof.
    intros H s. rewrite !once_eq. revert s. change (below (settings m ;; store v m ;; run_stored v self m ;; pass_on v m) (settings m ;; store v m ;; run_stored v self' m ;; pass_on v m)).
    apply below_seq; [apply below_refl|intros _]. apply below_seq; [apply below_refl|intros _]. apply below_seq; [|intros _; apply below_refl]. unfold run_stored. apply below_seq; [apply below_refl|intros h]. apply below_when. apply below_seq; [apply below_refl|intros c]. apply below_seq; [apply below_refl|intros h2]. apply below_when.
    apply below_seq; [apply below_refl|intros i]. apply below_seq; [apply below_refl|intros [t|]]; [apply below_each; intros x; apply H|apply below_refl].
  Qed.
  Lemma below_configure n : forall m, below (configure v n m) (configure v (S n) m).
  Proof. induction n as [|n IH]; intros m; [intros s; left; reflexivity|]. change (configure v (S (S n)) m) with (configure_once v (configure v (S n)) m). change (configure v (S n) m) with (configure_once v (configure v n) m). apply below_once, IH. Qed.
  Lemma deeper n k m s : snd (configure v n m s) <> Throw PDeep -> configure v (n + k) m s = configure v n m s.
  Proof.
    intros H. induction k as [|k IH]; [rewrite Nat.add_0_r; reflexivity|]. rewrite Nat.add_succ_r. destruct (below_configure (n + k) m s) as [D|D]; [rewrite IH in D; contradiction|]. rewrite <- D. exact IH.
  Qed.

  (** ** Steps that do not use up the stack *)
  Definition shallow {A} (a : M A) : Prop := forall s, snd (a s) <> Throw PDeep.
  Lemma sh_ret {A} (x : A) : shallow (ret x). Proof. intros s. discriminate. Qed.
  Lemma sh_raise {A} e : shallow (@raise P A e). Proof. intros s. discriminate. Qed.
  Lemma sh_seq {A B} (a : M A) (f : A -> M B) : shallow a -> (forall x, shallow (f x)) -> shallow (seq a f).
  Proof. intros Ha Hf s. unfold seq. specialize (Ha s). destruct (a s) as (s1, o). cbn in Ha. destruct o; [apply Hf|intros H; apply Ha; cbn in *; congruence|discriminate]. Qed.
  Lemma sh_lift {A} (o : outcome ipcexc A) : shallow (lift o). Proof. intros s. destruct o; discriminate. Qed.
  Lemma sh_get {A} (f : st -> A) : shallow (get f). Proof. intros s. discriminate. Qed.
  Lemma sh_change (f : st -> st) : shallow (change f). Proof. intros s. discriminate. Qed.
  Lemma sh_tell e : shallow (@tell P e). Proof. intros s. discriminate. Qed.
  Lemma sh_when b a : shallow a -> shallow (when b a). Proof. intros H. destruct b; [exact H|apply sh_ret]. Qed.
  Lemma sh_each {A} (l : list A) f : (forall x, shallow (f x)) -> shallow (each l f). Proof. intros H. induction l as [|x l IH]; [apply sh_ret|]. cbn. apply sh_seq; [apply H|intros _; exact IH]. Qed.
  Lemma sh_plugins f : (forall x, shallow (f x)) -> shallow (@each_plugin P f). Proof. intros H. apply sh_seq; [apply sh_get|intros l; apply sh_each, H]. Qed.
  Lemma sh_call i f : shallow (@call P i f). Proof. intros s. unfold call. destruct (sm_get (p_objs s) i) as [o|]; [|discriminate]. destruct (f o (p_reply s)) as ((?, ?), [?|?|]); discriminate. Qed.
  Lemma sh_wire c : shallow (@wire P c). Proof. intros s. unfold wire. destruct (do_cmd c (p_graph s)); discriminate. Qed.
  Lemma sh_all m l : shallow (@has_all P m l). Proof. induction l as [|n l IH]; [apply sh_ret|]. cbn. apply sh_seq; [apply sh_lift|]. intros []; [exact IH|apply sh_ret]. Qed.
  Lemma sh_put k x : shallow (@put P k x). Proof. intros s. unfold put. destruct (set_param (p_reply s) k x) as (?, [?|?|]); discriminate. Qed.
  Lemma sh_puts l : shallow (@puts P l). Proof. induction l as [|(k, x) l IH]; [apply sh_ret|]. cbn. apply sh_seq; [apply sh_put|intros _; exact IH]. Qed.
  Ltac shstep := first [ apply sh_ret | apply sh_raise | apply sh_lift | apply sh_get | apply sh_change | apply sh_tell | apply sh_call | apply sh_wire | apply sh_all | apply sh_put | apply sh_puts | apply sh_when | apply sh_plugins; intros ? | apply sh_seq; [|intros ?]
    | match goal with |- shallow (match ?x with _ => _ end) => destruct x end ].
  Lemma sh_disconnect m : shallow (plugin_disconnect v m).
  Proof.
    unfold plugin_disconnect. shstep; [shstep|]. shstep. intros s. match goal with |- snd (match ?a s with _ => _ end) <> _ => assert (R : shallow a) by repeat shstep; specialize (R s); destruct (a s) as (s1, o) end.
    cbn in R. destruct o as [?|[[[| | |]|?|]|]|]; try discriminate; try (exact R); match goal with |- snd (?a s1) <> _ => assert (R2 : shallow a) by repeat shstep; apply R2 end.
  Qed.
  Lemma sh_settings m : shallow (settings m).
  Proof. unfold settings, set_master, clear_errors, set_frames, inject, set_debug, set_ctrl, setup_control, set_meta, setup_meta, set_plugin, configure_plugin, plugin_load, load_plugin, load_class, plugin_connect, set_receiver, setup_receiver, section. repeat (apply sh_disconnect || shstep). Qed.
  Lemma sh_store m : shallow (store v m). Proof. unfold store, section. repeat shstep. Qed.
  Lemma sh_pass m : shallow (pass_on v m). Proof. unfold pass_on. repeat shstep. Qed.

  Lemma sh_nack w : shallow (@nack P w). Proof. intros s. unfold nack. destruct (set_nack (p_reply s) w) as (?, [?|?|]); discriminate. Qed.
  Lemma sh_commands m l : forall p, shallow (commands v m l p).
  Proof. induction l as [|i l IH]; intros p; cbn [commands]; [apply sh_ret|]. apply sh_seq; [apply sh_lift|intros h]. apply sh_seq; [|intros q; apply IH]. unfold str_param. repeat shstep. Qed.
  Lemma sh_statuses l : forall es ws, shallow (statuses v l es ws).
  Proof. induction l as [|i l IH]; intros es ws; cbn [statuses]; [apply sh_ret|]. unfold ask. repeat (apply IH || shstep). Qed.
  Lemma sh_request n t m : (g_type m, g_val m) <> (TCmd, VConfigure) -> shallow (request v n t m).
  Proof.
    intros N. unfold request. destruct (g_type m); try (apply sh_seq; [apply sh_put|intros _; apply sh_change]). destruct (g_val m); try (apply sh_seq; [apply sh_put|intros _; apply sh_change]); try (destruct (N eq_refl)); (apply sh_seq; [apply sh_change|intros _]).
    all: try apply sh_tell; unfold request_configuration, execute, request_commands, provide_status, provide_version, reset_statistics, ask, touch, reply_type; repeat (apply sh_commands || apply sh_statuses || apply sh_nack || shstep).
  Qed.

  (** ** What is stored, what is executed *)
  Lemma has_obj m x k h : params_of m = Some x -> has_param m k = Ret h -> no_slash k -> no_nul k -> h = true -> exists y, at_path [k] x = Some y.
  Proof.
    intros E H S N ->. unfold has_param in H. rewrite E, pieces_no_slash in H by exact S. cbn in H. rewrite cstr_id in H by exact N. destruct x; try discriminate. cbn. destruct (find_member k l); [eauto|discriminate].
  Qed.
  Lemma part_at m x k y : params_of m = Some x -> no_slash k -> no_nul k -> get_ref m k = Ret y -> at_path [k] x = Some y.
  Proof.
    intros E S N H. unfold get_ref, get_raw in H. rewrite E, pieces_no_slash in H by exact S. cbn in H. rewrite cstr_id in H by exact N. destruct x; try discriminate. cbn. destruct (find_member k l); [|discriminate]. injection H as ->. reflexivity.
  Qed.
  Lemma str_at m x k i : params_of m = Some x -> no_slash k -> no_nul k -> bind (get_param GStr m k) (fun r => Ret (match r with RStr s => s | _ => "" end)) = Ret i -> exists j, at_path [k] x = Some (JStr j) /\ i = cstr j.
  Proof.
    intros E S N. unfold get_param, get_raw. rewrite E, pieces_no_slash by exact S. cbn. rewrite cstr_id by exact N. destruct x; try discriminate. cbn. destruct (find_member k l) as [y|]; [|discriminate]. destruct y; try discriminate. cbn. intros H. injection H as <-. eauto.
  Qed.
  Ltac name := unfold no_slash, no_nul; cbn; intuition discriminate.
  Lemma at_two a b x y z : at_path [a] x = Some y -> at_path [b] y = Some z -> at_path [a; b] x = Some z.
  Proof. cbn. destruct x; try discriminate. destruct (find_member a l); [|discriminate]. intros H. injection H as ->. auto. Qed.
  Lemma lift_cases {A B} (o : outcome ipcexc A) (f : A -> M B) s s1 r : seq (lift o) f s = (s1, r) -> (exists x, o = Ret x /\ f x s = (s1, r)) \/ (s1 = s /\ r <> Throw PDeep /\ forall y, r <> Ret y).
  Proof. unfold seq, lift. destruct o as [x|e|]; intros H; [left; eauto|right; injection H as <- <-; repeat split; discriminate..]. Qed.
  Lemma when_cases b (a : M unit) s s1 r : when b a s = (s1, r) -> (b = true /\ a s = (s1, r)) \/ (s1 = s /\ r = Ret tt).
  Proof. destruct b; cbn; [auto|]. intros H. injection H as <- <-. auto. Qed.
  Lemma all_cases m l (f : bool -> M unit) s s1 r : seq (has_all m l) f s = (s1, r) -> (exists b, f b s = (s1, r)) \/ (s1 = s /\ r <> Throw PDeep).
  Proof.
    unfold seq. assert (H : forall s : st, exists o, has_all m l s = (s, o) /\ o <> Throw PDeep).
    { induction l as [|k l IH]; intros s0; [exists (Ret true); split; [reflexivity|discriminate]|]. cbn. unfold seq, lift. destruct (has_param m k) as [[|]|e|]; [apply IH|exists (Ret false)|exists (Throw (PFault (XIpc e)))|exists Undef]; (split; [reflexivity|discriminate]). }
    destruct (H s) as (o & -> & D). destruct o; [eauto|intros E; injection E as <- <-..]; right; (split; [reflexivity|]); [congruence|discriminate].
  Qed.
  Lemma section_cases {B} m k (f : msg -> M B) s s1 r : seq (section v m k) f s = (s1, r) -> (exists y c, get_ref m k = Ret y /\ params_of c = Some y /\ f c s = (s1, r)) \/ (s1 = s /\ r <> Throw PDeep).
  Proof. unfold section, seq, lift. destruct (get_ref m k) as [y|e|]; intros H; [left; exists y; eexists; split; [reflexivity|]; split; [|exact H]; reflexivity|right; injection H as <- <-; split; [reflexivity|discriminate]..]. Qed.
  Lemma store_cases m x s s1 r : params_of m = Some x -> store v m s = (s1, r) -> s1 = s \/
    exists i y, leads ["store"; "index"] x (JStr i) /\ leads ["store"; "value"] x y /\ s1 = w_stored (sm_put (p_stored s) (cstr i) (cut (fst (emit y)))) s.
  Proof.
    intros E H. unfold store in H. apply lift_cases in H as [(h & _ & H)|(-> & _)]; [|auto]. apply when_cases in H as [(_ & H)|(-> & _)]; [|auto]. apply section_cases in H as [(y & c & G & PC & H)|(-> & _)]; [|auto].
    apply all_cases in H as [(b & H)|(-> & _)]; [|auto]. apply when_cases in H as [(_ & H)|(-> & _)]; [|auto]. apply lift_cases in H as [(i & I & H)|(-> & _)]; [|auto]. apply lift_cases in H as [(z & Z & H)|(-> & _)]; [|auto]. injection H as <- _. right.
    apply (part_at m x) in G; [|exact E|name..]. apply (str_at c y) in I as (j & I & ->); [|exact PC|name..]. apply (part_at c y) in Z; [|exact PC|name..]. exists j, z. split; [apply leads_at; eapply at_two; eassumption|]. split; [apply leads_at; eapply at_two; eassumption|reflexivity].
  Qed.
  Lemma run_cases self m x s s1 r : params_of m = Some x -> run_stored v self m s = (s1, r) -> (s1 = s /\ r <> Throw PDeep) \/
    exists i t, leads ["execute"; "index"] x (JStr i) /\ sm_get (p_stored s) (cstr i) = Some t /\ each (stored_messages t) (fun y => self (msg_of_value y TCmd VConfigure true (v_now v))) s = (s1, r).
  Proof.
    intros E H. unfold run_stored in H. assert (Q : Ret tt <> @Throw pexc unit PDeep) by discriminate. apply lift_cases in H as [(h & _ & H)|(-> & D & _)]; [|auto]. apply when_cases in H as [(_ & H)|(-> & ->)]; [|auto]. apply section_cases in H as [(y & c & G & PC & H)|(-> & D)]; [|auto].
    apply lift_cases in H as [(h2 & _ & H)|(-> & D & _)]; [|auto]. apply when_cases in H as [(_ & H)|(-> & ->)]; [|auto]. apply lift_cases in H as [(i & I & H)|(-> & D & _)]; [|auto]. unfold seq, get in H. destruct (sm_get (p_stored s) i) as [t|] eqn:T; [|injection H as <- <-; auto]. right.
    apply (part_at m x) in G; [|exact E|name..]. apply (str_at c y) in I as (j & I & ->); [|exact PC|name..]. exists j, t. split; [apply leads_at; eapply at_two; eassumption|]. auto.
  Qed.

  (** ** Ranks *)
  Variable r : string -> nat.
  Definition kept (s : st) : Prop := forall i t z, sm_get (p_stored s) i = Some t -> In z (stored_messages t) -> ranked r (r i) z.
  Lemma kept_same s s1 : p_stored s1 = p_stored s -> kept s -> kept s1. Proof. intros E K. unfold kept. rewrite E. exact K. Qed.
  Lemma stored_machine t z : In z (stored_messages t) -> machine z.
  Proof.
    unfold stored_messages. destruct (parse t) as [x|] eqn:E; [|intros [<-|[]]; apply machine_leaf; discriminate]. apply c54_machine in E. destruct x; try (intros [<-|[]]; exact E). intros I y O. apply E. eapply oc_arr; eassumption.
  Qed.
  Lemma each_ends {A} (l : list A) (f : A -> M unit) : (forall x s, In x l -> kept s -> snd (f x s) <> Throw PDeep /\ kept (fst (f x s))) -> forall s, kept s -> snd (each l f s) <> Throw PDeep /\ kept (fst (each l f s)).
  Proof.
    intros H. induction l as [|x l IH]; intros s K; [split; [discriminate|exact K]|]. cbn. unfold seq. destruct (H x s (or_introl eq_refl) K) as (D & K1). destruct (f x s) as (s1, o). cbn in D, K1. destruct o; [|split; [cbn; congruence|exact K1]..].
    apply IH; [intros y s0 I; apply H; right; exact I|exact K1].
  Qed.
  Lemma occurs_part x y c : machine x -> at_path c x = Some y -> machine y.
  Proof.
    revert x. induction c as [|k c IH]; intros x M; cbn; [intros H; injection H as <-; exact M|]. destruct x; try discriminate. destruct (find_member k l) as [z|] eqn:F; [|discriminate]. apply IH. intros w O. apply M. apply find_split in F as (l1 & l2 & -> & _). eapply oc_obj; [apply in_or_app; right; left; reflexivity|exact O].
  Qed.
  Definition ended (p : st * outcome pexc unit) : Prop := snd p <> Throw PDeep /\ kept (fst p).
  Lemma configure_ends n : forall b x m s, b <= n -> ranked r b x -> machine x -> params_of m = Some x -> kept s -> snd (configure v (S n) m s) <> Throw PDeep /\ kept (fst (configure v (S n) m s)).
  Proof.
    induction n as [n IH] using (well_founded_induction lt_wf). intros b x m s L R MX E K. change (configure v (S n) m s) with (configure_once v (configure v n) m s). rewrite once_eq. match goal with |- snd ?p <> _ /\ _ => change (ended p) end.
    pose proof (does_settings v false m s) as DS. fold (settings m) in DS. pose proof (sh_settings m s) as SS. unfold seq at 1. destruct (settings m s) as (s1, o1). cbn in DS, SS. apply moves_stored in DS. pose proof (kept_same _ _ DS K) as K1. destruct o1; [|split; [cbn; congruence|exact K1]..].
    unfold seq at 1. pose proof (sh_store m s1) as SS2. destruct (store v m s1) as (s2, o2) eqn:ST. cbn in SS2. apply (store_cases m x) in ST; [|exact E]. assert (K2 : kept s2).
    { destruct ST as [->|(i & y & LI & LY & ->)]; [exact K1|]. intros j t z. cbn. rewrite sm_get_put. destruct (String.eqb_spec j (cstr i)) as [->|_]; [|apply K1]. intros H. injection H as <-. intros I. assert (MY : machine y) by (eapply occurs_part; [exact MX|apply leads_at, LY]).
      destruct (stored_again y z MY I) as [->|(z0 & MI & LK)]; [apply null_ranked|]. eapply like_ranked; [|exact LK]. inversion R as [? ? _ RS]; subst. eapply RS; eassumption. }
    destruct o2; [|split; [cbn; congruence|exact K2]..]. unfold seq at 1. destruct (run_stored v (configure v n) m s2) as (s3, o3) eqn:RN. apply (run_cases _ m x) in RN; [|exact E].
    assert (K3 : o3 <> Throw PDeep /\ kept s3).
    { destruct RN as [(-> & D)|(i & t & LI & T & EA)]; [auto|]. inversion R as [? ? RE _]; subst. specialize (RE i LI). destruct n as [|n]; [lia|].
      assert (H : snd (s3, o3) <> Throw PDeep /\ kept (fst (s3, o3))); [|exact H]. rewrite <- EA. apply each_ends; [|exact K2]. intros z s0 I K0. apply (IH n ltac:(lia) (r (cstr i)) z); [lia|eapply K2; eassumption|eapply stored_machine; eassumption|reflexivity|exact K0]. }
    destruct K3 as (D3 & K3). destruct o3; [|split; [cbn; congruence|exact K3]..]. split; [apply sh_pass|]. eapply kept_same; [|exact K3]. apply (moves_stored v), does_pass.
  Qed.
End Ends.
