(** C74: the receiver thread is started and stopped. *)
From Coq Require Import Permutation.
From Verif Require Import Base RxlModel RxlSpec.

Definition announced (s : sys) : Prop := s_known s = Some (s_gen s) \/ In (NIdentity (s_gen s)) (s_out s).
Definition phase (s : sys) : Prop :=
  match s_t s with
  | TConnect => s_running s = false /\ s_error s = false /\ s_socks s = []
  | TPorts l => s_running s = false /\ s_error s = false /\ exists d, f_ports (s_cfg s) = d ++ l /\ listens (s_cfg s) (s_table s) (s_socks s) d
  | TCheck => s_running s = false /\ (s_error s = false -> listens (s_cfg s) (s_table s) (s_socks s) (f_ports (s_cfg s)))
  | TAnnounce | TLoop | TSend | TRead _ => s_running s = true /\ s_error s = false /\ listens (s_cfg s) (s_table s) (s_socks s) (f_ports (s_cfg s))
  | TClean => s_running s = true /\ s_error s = false /\ s_run s = false /\ listens (s_cfg s) (s_table s) (s_socks s) (f_ports (s_cfg s))
  | TDone => (s_running s = true -> s_run s = false) /\ s_inq s = [] /\ (s_running s = false -> s_error s = true \/ s_gen s = 0%nat)
  end.
Definition told (s : sys) : Prop :=
  match s_t s with TConnect | TPorts _ | TCheck | TAnnounce => ~ announced s /\ s_inq s = [] | _ => True end.
Definition main (s : sys) : Prop :=
  match s_c s with CIdle => s_t s = TDone | CSpin _ => s_run s = true /\ s_late s = false /\ s_gen s <> 0%nat | CReady true => s_running s = true /\ s_run s = true | CReady false => (s_error s = true \/ s_late s = true) /\ s_gen s <> 0%nat | CJoin => s_run s = false end.
Record inv (s : sys) : Prop := { i_sane : sane (s_table s); i_gen : (forall g, s_known s = Some g -> (g <= s_gen s)%nat) /\ (forall g, In (NIdentity g) (s_out s) -> (g <= s_gen s)%nat); i_phase : phase s; i_told : told s; i_main : main s;
  i_socks : forall fd, In fd (s_socks s) -> In fd (map fst (sockets (s_table s))) \/ s_t s = TDone }.

Lemma clash_sym a p b q : clash a p b q = clash b q a p.
Proof. unfold clash. rewrite (Z.eqb_sym p q), (Z.eqb_sym a b). destruct (Z.eqb_spec q p) as [->|]; cbn; [|reflexivity]. destruct (p =? 0)%Z; cbn; [reflexivity|]. destruct (b =? a)%Z, (a =? 0)%Z, (b =? 0)%Z; reflexivity. Qed.
Lemma fresh_in fd t : fresh fd t = true -> (0 <= fd)%Z /\ ~ In fd (map fst t).
Proof.
  unfold fresh. intros H. apply andb_prop in H as (A & B). split; [lia|]. intros I. apply in_map_iff in I as (e & E & I). apply negb_true_iff in B. rewrite <- not_true_iff_false, existsb_exists in B. apply B. exists e. split; [exact I|]. lia.
Qed.
Lemma sane_add fd d t : sane t -> fresh fd t = true -> (forall a p, d = Bound a p -> forall e b q, In (e, Bound b q) t -> clash a p b q = false) -> sane (t ++ [(fd, d)]).
Proof.
  intros (S1 & S2 & S3) F C. apply fresh_in in F as (F1 & F2). split; [|split].
  - rewrite map_app. cbn. apply NoDup_rev in S1. rewrite <- (rev_involutive (map fst t ++ [fd])). apply NoDup_rev. rewrite rev_app_distr. cbn. constructor; [rewrite <- in_rev; exact F2|exact S1].
  - intros e I. apply in_app_or in I as [I|[<-|[]]]; [exact (S2 e I)|exact F1].
  - intros x a p e b q I J N. apply in_app_or in I as [I|[I|[]]]; apply in_app_or in J as [J|[J|[]]]; try (injection I as -> ->); try (injection J as -> ->); [exact (S3 _ _ _ _ _ _ I J N)| |exact (C a p eq_refl _ _ _ J)|congruence]. rewrite clash_sym. exact (C b q eq_refl _ _ _ I).
Qed.
Lemma sane_shut fd t : sane t -> sane (shut fd t).
Proof.
  intros (S1 & S2 & S3). unfold shut. split; [|split].
  - clear S2 S3. induction t as [|e t IH]; cbn; [constructor|]. inversion S1; subst. destruct (negb _); cbn; [constructor|]; auto. intros I. apply H1. apply in_map_iff in I as (x & E & I). apply filter_In in I as (I & _). apply in_map_iff. eauto.
  - intros e I. apply filter_In in I as (I & _). auto.
  - intros d a p e b q I J. apply filter_In in I as (I & _). apply filter_In in J as (J & _). eauto.
Qed.
Lemma sane_shuts l : forall t, sane t -> sane (fold_left (fun t fd => shut fd t) l t).
Proof. induction l as [|a l IH]; intros t S; cbn; [exact S|]. apply IH. apply sane_shut. exact S. Qed.
Lemma in_shut fd d x t : In (d, x) (shut fd t) <-> In (d, x) t /\ d <> fd.
Proof. unfold shut. rewrite filter_In. cbn. split; intros (A & B); split; auto; lia. Qed.
Lemma listens_mono f t t' socks ports : (forall fd x, In fd socks -> In (fd, x) t -> x <> Foreign -> In (fd, x) t') -> listens f t socks ports -> listens f t' socks ports.
Proof.
  intros H. unfold listens. destruct (f_kind f); [| |auto]; intros L; induction L as [|fd p l m E L IH]; constructor; auto using in_cons.
  - destruct E as (a & A & B). exists a. split; [exact A|]. apply H; [left; reflexivity|exact B|discriminate].
  - apply H; [left; reflexivity|exact E|discriminate].
Qed.
Lemma foreign_one fd t x : sane t -> find (fun e => (fst e =? fd)%Z) t = Some x -> forall y, In (fd, y) t -> (fd, y) = x.
Proof.
  intros (S1 & _) F y I. apply find_some in F as (F1 & F2). assert (fst x = fd) by lia. destruct x as (k & z). cbn in H. subst k. clear F2. induction t as [|e t IH]; [destruct I|]. inversion S1; subst. destruct I as [->|I], F1 as [F1|F1]; subst; auto.
  - destruct H1. apply in_map_iff. exists (fd, z). auto.
  - destruct H1. apply in_map_iff. exists (fd, y). auto.
Qed.
Lemma find_own fd x t : sane t -> In (fd, x) t -> find (fun e => (fst e =? fd)%Z) t = Some (fd, x).
Proof. intros S I. destruct (find _ t) as [y|] eqn:F; [rewrite <- (foreign_one fd t y S F x I); reflexivity|]. pose proof (find_none _ _ F _ I) as N. cbn in N. lia. Qed.

(** ** Invariant *)
Lemma sockets_app t k : sockets (t ++ k) = sockets t ++ sockets k.
Proof. apply filter_app. Qed.
Lemma sockets_in fd t : In fd (map fst (sockets t)) <-> exists x, In (fd, x) t /\ x <> Foreign.
Proof.
  unfold sockets. rewrite in_map_iff. split.
  - intros ((d & x) & E & I). apply filter_In in I as (I & N). cbn in *. subst d. exists x. split; [exact I|]. intros ->. discriminate.
  - intros (x & I & N). exists (fd, x). split; [reflexivity|]. apply filter_In. split; [exact I|]. cbn. destruct x; congruence.
Qed.
Ltac invp := unfold phase, told, main, announced in *.
Lemma inv_init t o : sane t -> inv (rx_init t o).
Proof. intros S. constructor; cbn; [exact S|split; [discriminate|intros g []]|unfold phase; cbn; auto|exact Logic.I|reflexivity|intros fd []]. Qed.
(** Steps that leave thread and table as they are *)
Lemma inv_socket fd opt conn p rest s s' : s_t s = TPorts (p :: rest) -> inv s -> socket_step fd opt conn p rest s = Some s' -> inv s'.
Proof.
  intros T [I1 I2 I3 I4 I5 I6] S. unfold phase, told in I3, I4. rewrite T in I3, I4. destruct I3 as (P1 & P2 & d & P3 & P4). destruct I4 as (A & Q).
  assert (M : forall x, s_t x = TPorts rest \/ s_t x = TCheck -> s_c x = s_c s -> s_run x = s_run s -> s_running x = s_running s -> s_late x = s_late s -> s_gen x = s_gen s -> (s_error s = true -> s_error x = true) -> main x).
  { intros x X1 X2 X3 X4 X5 X6 X7. unfold main in *. rewrite X2, X3, X4, X5, X6. destruct (s_c s) as [|n|[]|]; [rewrite I5 in T; discriminate|exact I5|exact I5|destruct I5 as ([I5|I5] & I7); split; auto|exact I5]. }
  assert (FAIL : forall t, sane t -> (forall e x, In (e, x) (s_table s) -> In (e, x) t) -> inv (fail_init t s)).
  { intros t S1 S2. unfold fail_init. constructor; [exact S1|exact I2| | | |].
    - unfold phase. cbn. split; [exact P1|discriminate].
    - split; [exact A|exact Q].
    - apply M; cbn; auto.
    - intros e E. left. destruct (I6 e E) as [J|J]; [|congruence]. apply sockets_in in J as (x & J & N). apply sockets_in. eauto. }
  assert (LEAK : forall e, fresh e (s_table s) = true -> inv (fail_init (s_table s ++ [(e, Plain)]) s)).
  { intros e E. apply FAIL; [apply sane_add; [exact I1|exact E|discriminate]|intros; apply in_or_app; auto]. }
  assert (GOOD : forall e x, fresh e (s_table s) = true -> x <> Foreign -> f_kind (s_cfg s) <> ZMQ -> sane (s_table s ++ [(e, x)]) -> listens (s_cfg s) (s_table s ++ [(e, x)]) (s_socks s ++ [e]) (d ++ [p]) -> inv (set_t (TPorts rest) (set_socks (s_socks s ++ [e]) (set_table (s_table s ++ [(e, x)]) s)))).
  { intros e x E NF NZ SA LI. constructor; [exact SA|exact I2| | | |].
    - unfold phase. cbn. split; [exact P1|]. split; [exact P2|]. exists (d ++ [p]). split; [rewrite P3, <- app_assoc; reflexivity|exact LI].
    - split; [exact A|exact Q].
    - apply M; cbn; auto.
    - intros k K. left. apply sockets_in. apply in_app_or in K as [K|[<-|[]]]; [destruct (I6 k K) as [J|J]; [|congruence]; apply sockets_in in J as (y & J & N); exists y; split; [apply in_or_app; auto|exact N]|exists x; split; [apply in_or_app; right; left; reflexivity|exact NF]]. }
  assert (MONO : forall e x, listens (s_cfg s) (s_table s ++ [(e, x)]) (s_socks s) d) by (intros e x; eapply listens_mono; [|exact P4]; intros; apply in_or_app; auto).
  unfold socket_step in S. destruct (f_kind (s_cfg s)) eqn:K.
  - destruct fd as [e|]; [|injection S as <-; apply FAIL; auto]. destruct (fresh e (s_table s)) eqn:F; cbn [negb] in S; [|discriminate]. cbv zeta in S. destruct opt; cbn [negb] in S; [|injection S as <-; auto]. destruct (f_addr (s_cfg s)) as [a|] eqn:AD; [|injection S as <-; auto].
    destruct (in_use a p (s_table s) (s_others s)) eqn:U; injection S as <-; [auto|]. apply GOOD; auto; try discriminate.
    + apply sane_add; auto. intros b q B k c r J. injection B as <- <-. unfold in_use in U. apply orb_false_iff in U as (U & _). destruct (clash a p c r) eqn:C; [|reflexivity]. rewrite <- not_true_iff_false, existsb_exists in U. destruct U. exists (k, Bound c r). auto.
    + unfold listens. rewrite K. apply Forall2_app; [specialize (MONO e (Bound a p)); unfold listens in MONO; rewrite K in MONO; exact MONO|]. constructor; [|constructor]. exists a. split; [exact AD|]. apply in_or_app. right. left. reflexivity.
  - destruct fd as [e|]; [|injection S as <-; apply FAIL; auto]. destruct (fresh e (s_table s)) eqn:F; cbn [negb] in S; [|discriminate]. cbv zeta in S. destruct opt; cbn [negb] in S; [|injection S as <-; auto]. destruct (f_addr (s_cfg s)) as [a|] eqn:AD; [|injection S as <-; auto].
    destruct conn; injection S as <-; [|auto]. apply GOOD; auto; try discriminate.
    + apply sane_add; auto. discriminate.
    + unfold listens. rewrite K. apply Forall2_app; [specialize (MONO e Conn); unfold listens in MONO; rewrite K in MONO; exact MONO|]. constructor; [|constructor]. apply in_or_app. right. left. reflexivity.
  - destruct fd; [discriminate|]. unfold listens in P4. rewrite K in P4. destruct conn; injection S as <-; (constructor; [exact I1|exact I2| | | |]).
    + unfold phase. cbn. split; [exact P1|]. split; [exact P2|]. exists (d ++ [p]). split; [rewrite P3, <- app_assoc; reflexivity|]. unfold listens. rewrite K. exact P4.
    + split; [exact A|exact Q].
    + apply M; cbn; auto.
    + cbn. rewrite P4. intros k [].
    + unfold phase. cbn. rewrite T. split; [exact P1|]. split; [exact P2|]. exists d. split; [exact P3|]. unfold listens. rewrite K. exact P4.
    + unfold told. cbn. rewrite T. split; [exact A|exact Q].
    + exact I5.
    + exact I6.
Qed.
Lemma inv_table t s : inv s -> sane t -> (forall fd x, In fd (s_socks s) -> In (fd, x) (s_table s) -> x <> Foreign -> In (fd, x) t) -> inv (set_table t s).
Proof.
  intros [I1 I2 I3 I4 I5 I6] S K. constructor; cbn; auto.
  - unfold phase in *. cbn. destruct (s_t s); auto; try (destruct I3 as (A & B & d & C & D); split; [exact A|]; split; [exact B|]; exists d; split; [exact C|]; eapply listens_mono; [|exact D]; exact K); try (destruct I3 as (A & B & C); split; [exact A|]; split; [exact B|]; eapply listens_mono; [|exact C]; exact K).
    + destruct I3 as (A & B). split; [exact A|]. intros E. eapply listens_mono; [|exact (B E)]. exact K.
    + destruct I3 as (A & B & C & D). split; [exact A|]. split; [exact B|]. split; [exact C|]. eapply listens_mono; [|exact D]. exact K.
  - intros fd F. destruct (I6 fd F) as [J|J]; [|auto]. left. apply sockets_in in J as (x & J & N). apply sockets_in. exists x. auto.
Qed.
Lemma main_keep s x : main s -> s_t s <> TDone -> s_c x = s_c s -> s_run x = s_run s -> s_late x = s_late s -> s_gen x = s_gen s -> (s_running s = true -> s_running x = true) -> (s_error s = true -> s_error x = true) -> main x.
Proof. unfold main. intros M N -> -> -> -> R E. destruct (s_c s) as [|n|[]|]; [contradiction|exact M|destruct M; auto|destruct M as ([M|M] & G); auto|exact M]. Qed.
Ltac kept M := eapply main_keep; [exact M|congruence|reflexivity|reflexivity|reflexivity|reflexivity|cbn; auto; congruence|cbn; auto; congruence].
Lemma in_but {A} i (l : list A) k : In k (firstn i l ++ skipn (S i) l) -> In k l.
Proof. intros I. apply in_app_or in I as [I|I]; [rewrite <- (firstn_skipn i l)|rewrite <- (firstn_skipn (S i) l)]; apply in_or_app; auto. Qed.
Lemma inv_step cap late x s s' : inv s -> rx_step cap late x s = Some s' -> inv s'.
Proof.
  intros I S. unfold rx_step in S. destruct (s_crash s) eqn:CR; [discriminate|]. destruct x as [f| | | |i|id|ok|fd opt conn| | |n|n| |o|fd|fd].
  - destruct I as [I1 I2 I3 I4 I5 I6]. destruct (s_c s) eqn:C; try discriminate. injection S as <-. constructor; [exact I1| | | | |]; invp; cbn.
    + destruct I2 as (A & B). split; intros g G; [specialize (A g G)|specialize (B g G)]; lia.
    + auto.
    + split; [|reflexivity]. intros [G|G]; destruct I2 as (A & B); [specialize (A _ G)|specialize (B _ G)]; lia.
    + repeat split; auto. 
    + intros fd [].
  - destruct I as [I1 I2 I3 I4 I5 I6]. destruct (s_c s) eqn:C; try discriminate. unfold main in I5. rewrite C in I5. destruct I5 as (M1 & M2 & M3). injection S as <-. destruct (s_running s) eqn:RU; [|destruct (s_error s) eqn:ER; [|destruct (late _)]]; (constructor; [exact I1|exact I2| | | |exact I6]); invp; cbn; auto.
    destruct (s_t s); auto; try (intuition congruence).
  - destruct I as [I1 I2 I3 I4 I5 I6]. destruct (s_c s) eqn:C; try discriminate. injection S as <-. constructor; [exact I1|exact I2| |exact I4|reflexivity|exact I6]. unfold phase in *. cbn. destruct (s_t s); try exact I3; destruct I3 as (P1 & P2 & P3 & P4) || destruct I3 as (P1 & P2 & P3); auto.
  - destruct (s_c s) eqn:C; try discriminate. destruct (s_t s) eqn:T; try discriminate. injection S as <-. assert (J : inv (cleanup s)).
    { unfold cleanup. destruct (f_kind (s_cfg s)); auto. apply inv_table; [exact I|apply sane_shut, (i_sane _ I)|]. intros fd y _ Y _. apply in_shut. split; [exact Y|]. destruct (i_sane _ I) as (_ & N & _). specialize (N _ Y). cbn in N. lia. }
    assert (E : s_t (cleanup s) = TDone) by (unfold cleanup; destruct (f_kind (s_cfg s)); exact T). destruct J as [I1 I2 I3 I4 I5 I6]. constructor; [exact I1|exact I2|exact I3|exact I4|exact E|exact I6].
  - destruct I as [I1 I2 I3 I4 I5 I6]. assert (exists m, nth_error (s_out s) i = Some m /\ s' = match m with NIdentity g => set_known (Some g) (set_out (firstn i (s_out s) ++ skipn (Datatypes.S i) (s_out s)) s) | NOther => set_out (firstn i (s_out s) ++ skipn (Datatypes.S i) (s_out s)) s end) as (m & O & ->).
    { destruct (s_c s) eqn:C, (nth_error (s_out s) i) as [m|]; try discriminate; injection S as <-; exists m; split; reflexivity. }
    apply nth_error_In in O. assert (Q : forall k, In k (firstn i (s_out s) ++ skipn (Datatypes.S i) (s_out s)) -> In k (s_out s)) by apply in_but. destruct I2 as (A & B). destruct m as [g|]; (constructor; [exact I1| |exact I3| |exact I5|exact I6]).
    + split; [intros k K; injection K as <-; apply B; exact O|intros k K; apply B, Q; exact K].
    + invp; cbn in *. destruct (s_t s); auto; (destruct I4 as (N & E); split; [|exact E]; intros [K|K]; apply N; [injection K as ->; right; exact O|right; apply Q; exact K]).
    + split; [exact A|intros k K; apply B, Q; exact K].
    + invp; cbn in *. destruct (s_t s); auto; (destruct I4 as (N & E); split; [|exact E]; intros [K|K]; apply N; [left; exact K|right; apply Q; exact K]).
  - destruct I as [I1 I2 I3 I4 I5 I6]. assert (s' = if match s_known s, s_t s with Some g, TDone => false | Some g, _ => Nat.eqb g (s_gen s) | None, _ => false end
                 then set_in (s_inq s ++ [id]) (s_got s) (s_lost s) s else set_in (s_inq s) (s_got s) (s_lost s ++ [id]) s) as -> by (destruct (s_c s); congruence). clear S.
    destruct (match s_known s, s_t s with Some g, TDone => false | Some g, _ => Nat.eqb g (s_gen s) | None, _ => false end) eqn:D; (constructor; [exact I1|exact I2| | |exact I5|exact I6]); auto.
    + invp; cbn in *. destruct (s_known s); [|discriminate]. destruct (s_t s); auto; discriminate.
    + invp; cbn in *. destruct (s_known s) as [g|]; [|discriminate]. destruct (s_t s); auto; try discriminate; (apply Nat.eqb_eq in D; subst g; destruct I4 as (N & _); destruct N; left; reflexivity).
  - destruct I as [I1 I2 I3 I4 I5 I6]. destruct (s_t s) as [|l| | | | |n| |] eqn:T; try discriminate.
    + unfold phase, told in I3, I4. rewrite T in I3, I4. destruct I3 as (P1 & P2 & P3). destruct I4 as (A & Q). injection S as <-. destruct ok; (constructor; [exact I1|exact I2| | |kept I5|cbn; rewrite P3; intros fd []]); invp; cbn; auto.
      * split; [exact P1|]. split; [exact P2|]. exists []. split; [reflexivity|]. unfold listens. rewrite P3. destruct (f_kind (s_cfg s)); auto.
      * rewrite P1. split; [discriminate|]. auto.
    + destruct l as [|p l]; [|discriminate]. injection S as <-. unfold phase, told in I3, I4. rewrite T in I3, I4. destruct I3 as (P1 & P2 & d & P3 & P4). rewrite app_nil_r in P3. subst d. constructor; [exact I1|exact I2| | |kept I5|]; invp; cbn; auto.
      * intros fd F. destruct (I6 fd F); [auto|congruence].
    + unfold phase, told in I3, I4. rewrite T in I3, I4. destruct I3 as (P1 & P2). destruct I4 as (A & Q). destruct (s_error s) eqn:ER; injection S as <-; (constructor; [exact I1|exact I2| | |kept I5|]); invp; cbn; auto.
      * rewrite P1. split; [discriminate|auto].
      * intros fd F. destruct (I6 fd F); [auto|congruence].
    + unfold send in S. destruct (Nat.ltb _ cap); [|discriminate]. injection S as <-. unfold phase in I3. rewrite T in I3. constructor; [exact I1| | | |kept I5|]; invp; cbn; auto.
      * destruct I2 as (A & B). split; [exact A|]. intros g G. apply in_app_or in G as [G|[G|[]]]; [auto|]. injection G as <-. lia.
      * intros fd F. destruct (I6 fd F); [auto|congruence].
    + unfold send in S. destruct (Nat.ltb _ cap); [|discriminate]. injection S as <-. unfold phase in I3. rewrite T in I3. constructor; [exact I1| | | |kept I5|]; invp; cbn; auto.
      * destruct I2 as (A & B). split; [exact A|]. intros g G. apply in_app_or in G as [G|[G|[]]]; [auto|discriminate].
      * intros fd F. destruct (I6 fd F); [auto|congruence].
    + injection S as <-. unfold phase in I3. rewrite T in I3. destruct I3 as (P1 & P2 & P3 & P4). constructor; [apply sane_shuts; exact I1|exact I2| | |kept I5|]; invp; cbn; auto.
      * split; [auto|]. split; [reflexivity|]. congruence.
  - destruct (s_t s) as [|[|p rest]| | | | | | |] eqn:T; try discriminate. eapply inv_socket; eassumption.
  - destruct (s_t s) eqn:T; try discriminate. injection S as <-. destruct (s_run s) eqn:R; [exact I|]. destruct I as [I1 I2 I3 I4 I5 I6]. unfold phase in I3. rewrite T in I3. constructor; [exact I1|exact I2| | |kept I5|]; invp; cbn; auto; [intuition|intros fd F; destruct (I6 fd F); [auto|congruence]].
  - destruct (s_t s) eqn:T; try discriminate. injection S as <-. destruct I as [I1 I2 I3 I4 I5 I6]. unfold phase in I3. rewrite T in I3. constructor; [exact I1|exact I2| | |kept I5|]; invp; cbn; auto; intros fd F; destruct (I6 fd F); [auto|congruence].
  - destruct (s_t s) eqn:T; try discriminate. destruct I as [I1 I2 I3 I4 I5 I6]. unfold phase in I3. rewrite T in I3.
    assert (G : forall t, t = TSend \/ t = TRead n -> inv (set_t t s)).
    { intros t [-> | ->]; (constructor; [exact I1|exact I2| | |kept I5|]); invp; cbn; auto; intros fd F; destruct (I6 fd F); auto; congruence. }
    destruct (same_kind _ _); [|injection S as <-; constructor; [exact I1|exact I2| | |kept I5|]; invp; cbn; rewrite ?T in *; auto].
    assert (s' = set_t TSend s \/ s' = set_t (TRead n) s) as [-> | ->] by (destruct (f_kind (s_cfg s)), n; injection S as <-; auto); apply G; auto.
  - destruct (s_t s) as [| | | | | |k| |] eqn:T; try discriminate. destruct (_ && _); [|discriminate]. injection S as <-. destruct I as [I1 I2 I3 I4 I5 I6]. unfold phase in I3. rewrite T in I3. destruct (Nat.eqb _ _); (constructor; [exact I1|exact I2| | |kept I5|]); invp; cbn; auto; intros fd F; destruct (I6 fd F); auto; congruence.
  - destruct (s_t s) eqn:T; try discriminate. destruct (s_inq s) as [|id q] eqn:Q; [discriminate|]. injection S as <-. destruct I as [I1 I2 I3 I4 I5 I6]. constructor; [exact I1|exact I2| | |kept I5|]; invp; cbn; rewrite ?T in *; auto.
  - destruct (existsb _ o); [discriminate|]. injection S as <-. destruct I as [I1 I2 I3 I4 I5 I6]. constructor; assumption.
  - destruct (fresh fd (s_table s)) eqn:F; [|discriminate]. injection S as <-. apply inv_table; [exact I|apply sane_add; [apply (i_sane _ I)|exact F|discriminate]|]. intros; apply in_or_app; auto.
  - destruct (find _ (s_table s)) as [(d & [| | |])|] eqn:F; try discriminate. injection S as <-. apply inv_table; [exact I|apply sane_shut, (i_sane _ I)|]. intros k y _ Y N. apply in_shut. split; [exact Y|]. intros ->. pose proof (foreign_one _ _ _ (i_sane _ I) F _ Y) as E. injection E as <- ->. congruence.
Qed.
Lemma inv_go cap late l : forall s s', inv s -> rx_go cap late l s = Some s' -> inv s'.
Proof. induction l as [|x l IH]; intros s s' I G; cbn in G; [injection G as <-; exact I|]. destruct (rx_step cap late x s) as [t|] eqn:S; [|discriminate]. eauto using inv_step. Qed.

(** ** Start *)
(** start() returns true only for a thread that serves, with a socket for each port. *)
Theorem c74_started cap late t o l s : sane t -> rx_go cap late l (rx_init t o) = Some s -> s_c s = CReady true ->
  serving (s_t s) /\ s_error s = false /\ listens (s_cfg s) (s_table s) (s_socks s) (f_ports (s_cfg s)).
Proof.
  intros SA G C. destruct (inv_go _ _ _ _ _ (inv_init t o SA) G) as [_ _ I3 _ I5 _]. unfold main in I5. rewrite C in I5. destruct I5 as (R & U). unfold phase in I3. destruct (s_t s); cbn [serving]; try (destruct I3 as (P1 & P2 & P3); auto; congruence).
  - destruct I3 as (P1 & _). congruence.
  - destruct I3 as (_ & _ & P1 & _). congruence.
  - destruct I3 as (P1 & _). specialize (P1 R). congruence.
Qed.
(** It returns false only if the thread failed to initialise, or it waited too long. *)
Theorem c74_refused cap late t o l s : sane t -> rx_go cap late l (rx_init t o) = Some s -> s_c s = CReady false -> s_error s = true \/ s_late s = true.
Proof. intros SA G C. destruct (inv_go _ _ _ _ _ (inv_init t o SA) G) as [_ _ _ _ I5 _]. unfold main in I5. rewrite C in I5. apply I5. Qed.

(** ** Descriptors *)
Lemma foreign_app t k : foreign (t ++ k) = foreign t ++ foreign k.
Proof. unfold foreign. rewrite filter_app, map_app. reflexivity. Qed.
Lemma foreign_shut fd t : foreign (shut fd t) = filter (fun d => negb (d =? fd)%Z) (foreign t).
Proof.
  unfold foreign, shut. induction t as [|(d & x) t IH]; [reflexivity|]. cbn [filter fst snd]. destruct (d =? fd)%Z eqn:E, x; cbn [negb filter map fst snd]; rewrite ?E; cbn [negb]; rewrite ?IH; reflexivity.
Qed.
Lemma filter_id {A} (f : A -> bool) l : (forall x, In x l -> f x = true) -> filter f l = l.
Proof. induction l as [|a l IH]; intros H; [reflexivity|]. cbn. rewrite (H a (or_introl eq_refl)), IH; auto. intros x X. apply H. right. exact X. Qed.
Lemma foreign_in fd t : In fd (foreign t) -> In (fd, Foreign) t.
Proof. unfold foreign. intros I. apply in_map_iff in I as ((d & x) & E & I). cbn in E. subst d. apply filter_In in I as (I & X). destruct x; try discriminate. exact I. Qed.
Lemma foreign_keep fd t : sane t -> (fd < 0)%Z \/ In fd (map fst (sockets t)) -> foreign (shut fd t) = foreign t.
Proof.
  intros S H. rewrite foreign_shut. apply filter_id. intros d D. apply foreign_in in D. apply negb_true_iff, Z.eqb_neq. intros ->. destruct H as [H|H]; [destruct S as (_ & S & _); specialize (S _ D); cbn in S; lia|].
  apply sockets_in in H as (x & H & N). pose proof (find_own _ _ _ S D) as F. pose proof (foreign_one _ _ _ S F _ H) as E. congruence.
Qed.
Lemma foreign_shuts l : forall t, sane t -> (forall fd, In fd l -> In fd (map fst (sockets t)) \/ ~ In fd (map fst t)) -> foreign (fold_left (fun t fd => shut fd t) l t) = foreign t.
Proof.
  induction l as [|a l IH]; intros t S H; cbn [fold_left]; [reflexivity|]. assert (A : foreign (shut a t) = foreign t).
  { destruct (H a (or_introl eq_refl)) as [K|K]; [apply foreign_keep; auto|]. rewrite foreign_shut. apply filter_id. intros d D. apply foreign_in in D. apply negb_true_iff, Z.eqb_neq. intros ->. apply K. apply in_map_iff. exists (a, Foreign). auto. }
  rewrite IH; [exact A|apply sane_shut; exact S|]. intros fd F. destruct (Z.eq_dec fd a) as [->|NE].
  - right. intros K. apply in_map_iff in K as ((d & x) & E & K). cbn in E. subst d. apply in_shut in K. destruct K. congruence.
  - destruct (H fd (or_intror F)) as [K|K].
    + left. apply sockets_in in K as (x & K & N). apply sockets_in. exists x. split; [apply in_shut; auto|exact N].
    + right. intros J. apply K. apply in_map_iff in J as ((d & x) & E & J). cbn in E. subst d. apply in_shut in J as (J & _). apply in_map_iff. exists (fd, x). auto.
Qed.
Lemma foreign_sock s fd opt conn p rest s' : socket_step fd opt conn p rest s = Some s' -> foreign (s_table s') = foreign (s_table s).
Proof.
  intros S. assert (F : forall d x, x <> Foreign -> foreign (s_table s ++ [(d, x)]) = foreign (s_table s)) by (intros d x X; rewrite foreign_app; destruct x; cbn; rewrite ?app_nil_r; congruence).
  unfold socket_step in S. destruct (f_kind (s_cfg s)), fd as [e|], conn; cbv zeta in S; try discriminate; try (destruct (fresh e (s_table s)); cbn [negb] in S; [|discriminate]; destruct opt; cbn [negb] in S; [destruct (f_addr (s_cfg s)) as [a|]|]); try (destruct (in_use a p (s_table s) (s_others s))); injection S as <-; cbn; auto; apply F; discriminate.
Qed.
(** What the other parts of the program have open is their own business. *)
Theorem c74_others cap late t o l s : sane t -> rx_go cap late l (rx_init t o) = Some s -> foreign (s_table s) = elsewhere l (foreign t).
Proof.
  intros SA. assert (K : forall l s0 s, inv s0 -> rx_go cap late l s0 = Some s -> foreign (s_table s) = elsewhere l (foreign (s_table s0))); [|intros G; apply (K l _ _ (inv_init t o SA) G)].
  clear l s. induction l as [|x l IH]; intros s0 s I G; cbn in G; [injection G as <-; reflexivity|]. destruct (rx_step cap late x s0) as [u|] eqn:S; [|discriminate]. rewrite (IH u s (inv_step _ _ _ _ _ I S) G). unfold elsewhere at 2. cbn [fold_left]. fold (elsewhere l (match x with Open fd => foreign (s_table s0) ++ [fd] | Shut fd => filter (fun d => negb (d =? fd)%Z) (foreign (s_table s0)) | _ => foreign (s_table s0) end)). f_equal.
  unfold rx_step in S. destruct (s_crash s0); [discriminate|]. destruct x as [f| | | |i|id|ok|fd opt conn| | |n|n| |oo|fd|fd].
  - destruct (s_c s0); try discriminate. injection S as <-. reflexivity.
  - destruct (s_c s0) as [|n| |]; try discriminate. destruct (s_running s0), (s_error s0), (late (n + 1)%N); injection S as <-; reflexivity.
  - destruct (s_c s0); try discriminate. injection S as <-. reflexivity.
  - destruct (s_c s0), (s_t s0); try discriminate. injection S as <-. unfold cleanup. destruct (f_kind (s_cfg s0)); try reflexivity. cbn. apply foreign_keep; [apply (i_sane _ I)|left; lia].
  - destruct (s_c s0), (nth_error (s_out s0) i) as [[]|]; try discriminate; injection S as <-; reflexivity.
  - destruct (s_c s0); try discriminate; injection S as <-; match goal with |- context [if ?b then _ else _] => destruct b end; reflexivity.
  - destruct (s_t s0) as [|[|]| | | | | | |] eqn:T; try discriminate; unfold send in S.
    + destruct ok; injection S as <-; reflexivity.
    + injection S as <-. reflexivity.
    + destruct (s_error s0); injection S as <-; reflexivity.
    + destruct (Nat.ltb _ _); [|discriminate]. injection S as <-. reflexivity.
    + destruct (Nat.ltb _ _); [|discriminate]. injection S as <-. reflexivity.
    + injection S as <-. cbn. apply foreign_shuts; [apply (i_sane _ I)|]. intros fd F. destruct (i_socks _ I fd F) as [J|J]; [auto|congruence].
  - destruct (s_t s0) as [|[|]| | | | | | |]; try discriminate. eapply foreign_sock. exact S.
  - destruct (s_t s0); try discriminate. destruct (s_run s0); injection S as <-; reflexivity.
  - destruct (s_t s0); try discriminate. injection S as <-; reflexivity.
  - destruct (s_t s0); try discriminate. destruct (same_kind _ _); [destruct (f_kind (s_cfg s0)), n|]; injection S as <-; reflexivity.
  - destruct (s_t s0); try discriminate. destruct (_ && _); [|discriminate]. injection S as <-. reflexivity.
  - destruct (s_t s0), (s_inq s0); try discriminate. injection S as <-. reflexivity.
  - destruct (existsb _ oo); [discriminate|]. injection S as <-. reflexivity.
  - destruct (fresh fd (s_table s0)); [|discriminate]. injection S as <-. cbn [s_table set_table]. rewrite foreign_app. reflexivity.
  - destruct (find _ _) as [(d & [| | |])|]; try discriminate. injection S as <-. cbn [s_table set_table]. apply foreign_shut.
Qed.
Lemma sockets_shut fd t : sockets (shut fd t) = filter (fun e => negb (fst e =? fd)%Z) (sockets t).
Proof.
  unfold sockets, shut. induction t as [|(d & x) t IH]; [reflexivity|]. cbn [filter fst snd]. destruct (d =? fd)%Z eqn:E, x; cbn [negb filter fst snd]; rewrite ?E; cbn [negb]; rewrite ?IH; reflexivity.
Qed.
Lemma sockets_shuts l : forall t, sockets (fold_left (fun t fd => shut fd t) l t) = filter (fun e => negb (existsb (Z.eqb (fst e)) l)) (sockets t).
Proof.
  induction l as [|a l IH]; intros t; cbn [fold_left]; [symmetry; apply filter_id; reflexivity|]. rewrite IH, sockets_shut. induction (sockets t) as [|e k IHk]; [reflexivity|]. cbn. destruct (fst e =? a)%Z; cbn; [exact IHk|]. destruct (existsb _ l); cbn; rewrite IHk; reflexivity.
Qed.
Lemma sockets_keep fd t : sane t -> (fd < 0)%Z \/ In fd (foreign t) -> sockets (shut fd t) = sockets t.
Proof.
  intros S H. rewrite sockets_shut. apply filter_id. intros (d & x) D. cbn. apply negb_true_iff, Z.eqb_neq. intros ->. unfold sockets in D. apply filter_In in D as (D & X). destruct H as [H|H]; [destruct S as (_ & S & _); specialize (S _ D); cbn in S; lia|]. apply foreign_in in H. pose proof (foreign_one _ _ _ S (find_own _ _ _ S H) _ D) as E. injection E as ->. discriminate.
Qed.
Lemma nodup_fst t : sane t -> NoDup (map fst (sockets t)).
Proof. intros (S & _). unfold sockets. induction t as [|e t IH]; cbn; [constructor|]. inversion S; subst. destruct (snd e); cbn; auto; constructor; auto; intros I; apply H1; apply in_map_iff in I as (x & E & I); apply filter_In in I as (I & _); apply in_map_iff; eauto. Qed.
(** Without failures nothing is left behind: the sockets are those there were and those of the thread there is. *)
Definition tidy (k : table) (s : sys) : Prop := s_errors s = 0%nat -> (exists mine, sockets (s_table s) = k ++ mine /\ map fst mine = s_socks s) /\ (s_t s = TDone -> s_socks s = []) /\ s_error s = false.
Lemma tidy_step cap late k x s s' : inv s -> tidy k s -> rx_step cap late x s = Some s' -> tidy k s'.
Proof.
  intros I T S. unfold tidy in *. unfold rx_step in S. destruct (s_crash s); [discriminate|]. destruct x as [f| | | |i|id|ok|fd opt conn| | |n|n| |oo|fd|fd].
  - destruct (s_c s) eqn:C; try discriminate. injection S as <-. cbn. intros E. destruct (T E) as ((mine & A & B) & D & _). pose proof (i_main _ I) as M. unfold main in M. rewrite C in M. rewrite (D M) in B. split; [exists mine; auto|]. split; [discriminate|reflexivity].
  - destruct (s_c s) as [|n| |]; try discriminate. destruct (s_running s), (s_error s) eqn:ER, (late (n + 1)%N); injection S as <-; cbn; rewrite ER; exact T.
  - destruct (s_c s); try discriminate. injection S as <-. exact T.
  - destruct (s_c s), (s_t s) eqn:TT; try discriminate. injection S as <-. cbn. unfold cleanup. destruct (f_kind (s_cfg s)); cbn; rewrite ?TT; try exact T. rewrite sockets_keep; [exact T|apply (i_sane _ I)|left; lia].
  - destruct (s_c s), (nth_error (s_out s) i) as [[]|]; try discriminate; injection S as <-; exact T.
  - destruct (s_c s); try discriminate; injection S as <-; match goal with |- context [if ?b then _ else _] => destruct b end; exact T.
  - destruct (s_t s) as [|[|]| | | | | | |] eqn:TT; try discriminate; unfold send in S.
    + destruct ok; injection S as <-; cbn; [|discriminate]. intros E. destruct (T E) as (A & B & C). split; [exact A|]. split; [discriminate|exact C].
    + injection S as <-. cbn. intros E. destruct (T E) as (A & B & C). split; [exact A|]. split; [discriminate|exact C].
    + destruct (s_error s) eqn:ER; injection S as <-; cbn; intros E; destruct (T E) as (A & B & C); [discriminate|]. split; [exact A|]. split; [discriminate|exact ER].
    + destruct (Nat.ltb _ _); [|discriminate]. injection S as <-. cbn. intros E. destruct (T E) as (A & B & C). split; [exact A|]. split; [discriminate|exact C].
    + destruct (Nat.ltb _ _); [|discriminate]. injection S as <-. cbn. intros E. destruct (T E) as (A & B & C). split; [exact A|]. split; [discriminate|exact C].
    + injection S as <-. cbn. intros E. destruct (T E) as ((mine & A & B) & _ & C). split; [|auto]. exists []. split; [|reflexivity]. rewrite sockets_shuts, A, filter_app. pose proof (nodup_fst _ (i_sane _ I)) as N. rewrite A, map_app, B in N.
      rewrite (filter_id _ k); [f_equal|].
      * rewrite <- B. clear. assert (H : forall e, In e mine -> negb (existsb (Z.eqb (fst e)) (map fst mine)) = false) by (intros e X; apply negb_false_iff, existsb_exists; exists (fst e); split; [apply in_map; exact X|apply Z.eqb_refl]). revert H. generalize (map fst mine). intros l H. induction mine as [|e m IH]; [reflexivity|]. cbn. rewrite (H e (or_introl eq_refl)). apply IH. intros y Y. apply H. right. exact Y.
      * intros e X. apply negb_true_iff, not_true_iff_false. rewrite existsb_exists. intros (y & Y & Z). apply Z.eqb_eq in Z. subst y. clear - N X Y. induction k as [|a k IH]; [destruct X|]. cbn in N. inversion N; subst. destruct X as [->|X]; [apply H1; apply in_or_app; auto|auto].
  - destruct (s_t s) as [|[|p rest]| | | | | | |] eqn:TT; try discriminate. unfold socket_step in S.
    assert (OK : forall e y, y <> Foreign -> s_errors s = 0%nat -> (exists mine, sockets (s_table s ++ [(e, y)]) = k ++ mine /\ map fst mine = s_socks s ++ [e]) /\ (TPorts rest = TDone -> s_socks s ++ [e] = []) /\ s_error s = false).
    { intros e y NF E. destruct (T E) as ((mine & A & B) & _ & C). split; [|split; [discriminate|exact C]]. exists (mine ++ [(e, y)]). rewrite sockets_app, A, <- app_assoc, map_app, B. destruct y; [congruence|auto|auto|auto]. }
    destruct (f_kind (s_cfg s)), fd as [e|], conn; cbv zeta in S; try discriminate; try (destruct (fresh e (s_table s)); cbn [negb] in S; [|discriminate]; destruct opt; cbn [negb] in S; [destruct (f_addr (s_cfg s)) as [a|]|]); try (destruct (in_use a p (s_table s) (s_others s))); injection S as <-; cbn; try discriminate; try (apply OK; discriminate); rewrite ?TT; try exact T; intros E; destruct (T E) as (A & B & C); (split; [exact A|split; [discriminate|exact C]]).
  - destruct (s_t s) eqn:TT; try discriminate. destruct (s_run s); injection S as <-; cbn; rewrite ?TT; try exact T. intros E. destruct (T E) as (A & B & C). split; [exact A|]. split; [discriminate|exact C].
  - destruct (s_t s); try discriminate. injection S as <-. cbn. intros E. destruct (T E) as (A & B & C). split; [exact A|]. split; [discriminate|exact C].
  - destruct (s_t s) eqn:TT; try discriminate. destruct (same_kind _ _); [destruct (f_kind (s_cfg s)), n|]; injection S as <-; cbn; rewrite ?TT; intros E; destruct (T E) as (A & B & C); (split; [exact A|split; [discriminate|exact C]]).
  - destruct (s_t s); try discriminate. destruct (_ && _); [|discriminate]. injection S as <-. cbn. intros E. destruct (T E) as (A & B & C). split; [exact A|]. split; [destruct (Nat.eqb _ _); discriminate|exact C].
  - destruct (s_t s) eqn:TT, (s_inq s); try discriminate. injection S as <-. cbn. rewrite TT. exact T.
  - destruct (existsb _ oo); [discriminate|]. injection S as <-. exact T.
  - destruct (fresh fd (s_table s)); [|discriminate]. injection S as <-. cbn [s_table s_errors s_t s_socks s_error set_table]. rewrite sockets_app. cbn [sockets filter snd]. rewrite app_nil_r. exact T.
  - destruct (find _ _) as [(d & [| | |])|] eqn:F; try discriminate. injection S as <-. cbn [s_table s_errors s_t s_socks s_error set_table]. rewrite sockets_keep; [exact T|apply (i_sane _ I)|]. right. apply find_some in F as (F1 & F2). cbn in F2. apply Z.eqb_eq in F2. subst d. unfold foreign. apply in_map_iff. exists (fd, Foreign). split; [reflexivity|]. apply filter_In. auto.
Qed.
(** Missing: threads that failed to initialise ([c74_leak_refuted]). *)
Theorem c74_clean_partial cap late t o l s : sane t -> rx_go cap late l (rx_init t o) = Some s -> s_errors s = 0%nat ->
  (exists mine, sockets (s_table s) = sockets t ++ mine /\ map fst mine = s_socks s) /\ (s_t s = TDone -> sockets (s_table s) = sockets t).
Proof.
  intros SA G E. assert (T : tidy (sockets t) s).
  { revert G. assert (I : inv (rx_init t o)) by (apply inv_init; exact SA). assert (T : tidy (sockets t) (rx_init t o)) by (intros _; cbn; split; [exists []; rewrite app_nil_r; auto|auto]). revert I T. generalize (rx_init t o). clear E. revert s. induction l as [|x l IH]; intros s s0 I T G; cbn in G; [injection G as <-; exact T|]. destruct (rx_step cap late x s0) as [u|] eqn:S; [|discriminate]. eauto using inv_step, tidy_step. }
  destruct (T E) as ((mine & A & B) & D & _). split; [eauto|]. intros TD. rewrite (D TD) in B. destruct mine; [|discriminate]. rewrite A, app_nil_r. reflexivity.
Qed.

(** ** Ports that stay taken *)
Definition stays (fd : Z) (y : desc) (s : sys) : Prop := In (fd, y) (s_table s) /\ (s_t s = TDone \/ ~ In fd (s_socks s)).
Lemma shuts_in fd y l : forall t, In (fd, y) t -> ~ In fd l -> In (fd, y) (fold_left (fun t d => shut d t) l t).
Proof. induction l as [|a l IH]; intros t I N; cbn [fold_left]; [exact I|]. apply IH; [apply in_shut; split; [exact I|intros ->; apply N; left; reflexivity]|intros J; apply N; right; exact J]. Qed.
Lemma stays_step cap late fd y x s s' : y <> Foreign -> inv s -> stays fd y s -> rx_step cap late x s = Some s' -> stays fd y s'.
Proof.
  intros NF I (A & B) S. unfold stays. unfold rx_step in S. destruct (s_crash s); [discriminate|]. destruct x as [f| | | |i|id|ok|d opt conn| | |n|n| |oo|d|d].
  - destruct (s_c s); try discriminate. injection S as <-. cbn. split; [exact A|]. right. intros [].
  - destruct (s_c s) as [|n| |]; try discriminate. destruct (s_running s), (s_error s), (late (n + 1)%N); injection S as <-; cbn; auto.
  - destruct (s_c s); try discriminate. injection S as <-. cbn; auto.
  - destruct (s_c s); try discriminate. destruct (s_t s) eqn:T; try discriminate. injection S as <-. unfold cleanup. destruct (f_kind (s_cfg s)); cbn [set_c s_table s_t s_socks set_table]; auto. split; [|auto]. apply in_shut. split; [exact A|]. destruct (i_sane _ I) as (_ & N & _). specialize (N _ A). cbn in N. lia.
  - destruct (s_c s), (nth_error (s_out s) i) as [[]|]; try discriminate; injection S as <-; cbn; auto.
  - destruct (s_c s); try discriminate; injection S as <-; match goal with |- context [if ?b then _ else _] => destruct b end; cbn; auto.
  - destruct (s_t s) as [|[|]| | | | | | |] eqn:T; try discriminate; unfold send in S; (destruct B as [B|B]; [discriminate|]).
    + destruct ok; injection S as <-; cbn; auto.
    + injection S as <-; cbn; auto.
    + destruct (s_error s); injection S as <-; cbn; auto.
    + destruct (Nat.ltb _ _); [|discriminate]. injection S as <-. cbn; auto.
    + destruct (Nat.ltb _ _); [|discriminate]. injection S as <-. cbn; auto.
    + injection S as <-. cbn [s_table s_t s_socks set_t set_in set_socks set_table]. split; [apply shuts_in; assumption|auto].
  - destruct (s_t s) as [|[|p rest]| | | | | | |] eqn:T; try discriminate. destruct B as [B|B]; [discriminate|]. unfold socket_step in S.
    assert (K : forall e z, fresh e (s_table s) = true -> In (fd, y) (s_table s ++ [(e, z)]) /\ (TPorts rest = TDone \/ ~ In fd (s_socks s ++ [e]))).
    { intros e z F. split; [apply in_or_app; auto|]. right. intros J. apply in_app_or in J as [J|[->|[]]]; [auto|]. apply fresh_in in F as (_ & F). apply F. apply in_map_iff. exists (fd, y). auto. }
    assert (K2 : forall e z, In (fd, y) (s_table s ++ [(e, z)])) by (intros; apply in_or_app; auto).
    destruct (f_kind (s_cfg s)), d as [e|], conn; cbv zeta in S; try discriminate; try (destruct (fresh e (s_table s)) eqn:F; cbn [negb] in S; [|discriminate]; destruct opt; cbn [negb] in S; [destruct (f_addr (s_cfg s)) as [a|]|]); try (destruct (in_use a p (s_table s) (s_others s))); injection S as <-; cbn [s_table s_t s_socks set_t set_socks set_table fail_init set_error set_crash]; auto.
  - destruct (s_t s) eqn:T; try discriminate. destruct B as [B|B]; [discriminate|]. destruct (s_run s); injection S as <-; cbn; auto.
  - destruct (s_t s) eqn:T; try discriminate. destruct B as [B|B]; [discriminate|]. injection S as <-; cbn; auto.
  - destruct (s_t s) eqn:T; try discriminate. destruct B as [B|B]; [discriminate|]. destruct (same_kind _ _); [destruct (f_kind (s_cfg s)), n|]; injection S as <-; cbn; auto.
  - destruct (s_t s); try discriminate. destruct B as [B|B]; [discriminate|]. destruct (_ && _); [|discriminate]. injection S as <-. cbn; auto.
  - destruct (s_t s) eqn:T, (s_inq s); try discriminate. destruct B as [B|B]; [discriminate|]. injection S as <-. cbn; auto.
  - destruct (existsb _ oo); [discriminate|]. injection S as <-. cbn; auto.
  - destruct (fresh d (s_table s)); [|discriminate]. injection S as <-. cbn. split; [apply in_or_app; auto|exact B].
  - destruct (find _ _) as [(e & [| | |])|] eqn:F; try discriminate. injection S as <-. cbn [s_table s_t s_socks set_table]. split; [|exact B]. apply in_shut. split; [exact A|]. intros ->. pose proof (foreign_one _ _ _ (i_sane _ I) F _ A) as E. injection E as <- ->. congruence.
Qed.
Lemma stays_go cap late fd y l : forall s s', y <> Foreign -> inv s -> stays fd y s -> rx_go cap late l s = Some s' -> stays fd y s' /\ inv s'.
Proof. induction l as [|x l IH]; intros s s' N I K G; cbn in G; [injection G as <-; auto|]. destruct (rx_step cap late x s) as [t|] eqn:S; [|discriminate]. eauto using inv_step, stays_step. Qed.
Lemma go_app cap late l k : forall s t, rx_go cap late l s = Some t -> rx_go cap late (l ++ k) s = rx_go cap late k t.
Proof. induction l as [|x l IH]; intros s t G; cbn in *; [injection G as ->; reflexivity|]. destruct (rx_step cap late x s); [eauto|discriminate]. Qed.
Lemma go_cons cap late x l s t r : rx_step cap late x s = Some t -> rx_go cap late l t = r -> rx_go cap late (x :: l) s = r.
Proof. intros S G. cbn. rewrite S. exact G. Qed.
Lemma sock_ok a p rest d s cap late k : (s_crash s = false /\ s_t s = TPorts (p :: rest) /\ s_cfg s = Cfg UDP (Some a) k UDP /\ fresh d (s_table s) = true) -> in_use a p (s_table s) (s_others s) = false ->
  rx_step cap late (Socket (Some d) true true) s = Some (set_t (TPorts rest) (set_socks (s_socks s ++ [d]) (set_table (s_table s ++ [(d, Bound a p)]) s))).
Proof. intros (A & B & C & D) U. unfold rx_step. rewrite A, B. unfold socket_step. rewrite C. cbn [f_kind f_addr negb]. rewrite D. cbn [negb]. rewrite U. reflexivity. Qed.
Lemma sock_used a p rest d s cap late k : (s_crash s = false /\ s_t s = TPorts (p :: rest) /\ s_cfg s = Cfg UDP (Some a) k UDP /\ fresh d (s_table s) = true) -> in_use a p (s_table s) (s_others s) = true ->
  rx_step cap late (Socket (Some d) true true) s = Some (fail_init (s_table s ++ [(d, Plain)]) s).
Proof. intros (A & B & C & D) U. unfold rx_step. rewrite A, B. unfold socket_step. rewrite C. cbn [f_kind f_addr negb]. rewrite D. cbn [negb]. rewrite U. reflexivity. Qed.
(** A second port that is taken by another program for a while: the first stays bound for ever, and receiving on it is not possible again in this program. *)
Definition leak_run (a p q : Z) : list lab :=
  [Others [(a, q)]; Start (Cfg UDP (Some a) [p; q] UDP); Thread true; Socket (Some 5%Z) true true; Socket (Some 6%Z) true true; Thread true; Spin; Stop; Joined; Others []].
Lemma leak_reach cap late a p q : p <> 0%Z -> q <> 0%Z -> p <> q -> exists s, rx_go cap late (leak_run a p q) (rx_init [] []) = Some s /\ s_c s = CIdle /\ s_others s = [] /\ s_table s = [(5%Z, Bound a p); (6%Z, Plain)] /\ s_t s = TDone.
Proof.
  intros NP NQ NE.
  assert (E1 : clash a p a q = false) by (unfold clash; destruct (Z.eqb_spec p q); [contradiction|reflexivity]). assert (E2 : clash a q a q = true) by (unfold clash; rewrite !Z.eqb_refl; destruct (Z.eqb_spec q 0); [contradiction|reflexivity]).
  set (f := Cfg UDP (Some a) [p; q] UDP). exists (Sys [(5%Z, Bound a p); (6%Z, Plain)] [] CIdle TDone f 1 false false true [5%Z] [] None [] [] [] false 1 false false). split; [|auto].
  change (leak_run a p q) with ([Others [(a, q)]; Start f; Thread true] ++ [Socket (Some 5%Z) true true] ++ [Socket (Some 6%Z) true true] ++ [Thread true; Spin; Stop; Joined; Others []]).
  rewrite (go_app cap late [Others [(a, q)]; Start f; Thread true] _ (rx_init [] []) (Sys [] [(a, q)] (CSpin 0) (TPorts [p; q]) f 1 true false false [] [] None [] [] [] false 0 false false) eq_refl).
  rewrite (go_app cap late [Socket (Some 5%Z) true true] _ _ (Sys [(5%Z, Bound a p)] [(a, q)] (CSpin 0) (TPorts [q]) f 1 true false false [5%Z] [] None [] [] [] false 0 false false)).
  2: { eapply go_cons; [apply (sock_ok a p [q] 5%Z _ _ _ [p; q]); [repeat split|cbn -[clash]; rewrite E1; reflexivity]|reflexivity]. }
  rewrite (go_app cap late [Socket (Some 6%Z) true true] _ _ (Sys [(5%Z, Bound a p); (6%Z, Plain)] [(a, q)] (CSpin 0) TCheck f 1 true false true [5%Z] [] None [] [] [] false 1 false false)).
  2: { eapply go_cons; [apply (sock_used a q [] 6%Z _ _ _ [p; q]); [repeat split|unfold in_use; cbn -[clash]; rewrite E2; apply orb_true_r]|reflexivity]. }
  reflexivity.
Qed.
Theorem c74_leak_refuted cap late a p q : p <> 0%Z -> q <> 0%Z -> p <> q ->
  exists s, rx_go cap late (leak_run a p q) (rx_init [] []) = Some s /\ s_c s = CIdle /\ s_others s = [] /\
    forall l s', rx_go cap late l s = Some s' -> In (5%Z, Bound a p) (s_table s') /\
      (f_kind (s_cfg s') = UDP -> f_addr (s_cfg s') = Some a -> In p (f_ports (s_cfg s')) -> s_c s' <> CReady true).
Proof.
  intros NP NQ NE. pose proof (leak_reach cap late a p q NP NQ NE) as R.
  destruct R as (s & G & C & O & TB & TD). exists s. split; [exact G|]. split; [exact C|]. split; [exact O|]. intros l s' G'. assert (SA : sane []) by (split; [constructor|split; [intros e []|intros d ? ? ? ? ? []]]). pose proof (inv_go _ _ _ _ _ (inv_init [] [] SA) G) as I.
  assert (K : stays 5%Z (Bound a p) s) by (split; [rewrite TB; left; reflexivity|auto]). assert (NF0 : Bound a p <> Foreign) by discriminate. destruct (stays_go _ _ _ _ _ _ _ NF0 I K G') as ((K1 & K2) & I'). split; [exact K1|]. intros FK FA FP CR.
  assert (G2 : rx_go cap late (leak_run a p q ++ l) (rx_init [] []) = Some s') by (rewrite (go_app _ _ _ _ _ _ G); exact G'). destruct (c74_started _ _ _ _ _ _ SA G2 CR) as (SV & _ & L). destruct K2 as [K2|K2]; [rewrite K2 in SV; destruct SV|].
  unfold listens in L. rewrite FK in L. clear - L FP K1 K2 I' FA NP. assert (exists fd, In fd (s_socks s') /\ In (fd, Bound a p) (s_table s')) as (fd & F1 & F2).
  { revert FP. induction L as [|fd r ls lp (b & B1 & B2) L IH]; intros FP; [destruct FP|]. destruct FP as [->|FP]; [exists fd; split; [left; reflexivity|congruence]|]. destruct IH as (k & K & J); [intros J; apply K2; right; exact J|exact FP|]. exists k. split; [right; exact K|exact J]. }
  destruct (i_sane _ I') as (_ & _ & S3). assert (NF : fd <> 5%Z) by (intros ->; auto). pose proof (S3 _ _ _ _ _ _ F2 K1 NF) as CL. unfold clash in CL. rewrite !Z.eqb_refl in CL. destruct (Z.eqb_spec p 0); [auto|discriminate].
Qed.

(** ** Stop *)
Definition left_to_do (s : sys) : nat :=
  if s_crash s then 0%nat else
  match s_c s with
  | CJoin => match s_t s with TConnect => List.length (f_ports (s_cfg s)) + 7 | TPorts l => List.length l + 6 | TCheck => 5 | TAnnounce | TSend => 4 | TLoop => 3 | TClean => 2 | TDone => 1 | TRead _ => 0 end
  | _ => 0
  end.
Lemma own_down cap late x s s' : inv s -> s_c s = CJoin -> own_step x -> rx_step cap late x s = Some s' -> (left_to_do s' < left_to_do s)%nat /\ (s_c s' = CJoin \/ s_c s' = CIdle /\ s_t s' = TDone).
Proof.
  intros I C O S. pose proof (i_main _ I) as M. unfold main in M. rewrite C in M. unfold left_to_do. unfold rx_step in S. destruct (s_crash s) eqn:CR; [discriminate|]. rewrite C in *. destruct x as [f| | | |i|id|ok|d opt conn| | |n|n| |oo|d|d]; try (destruct O; fail).
  - destruct (s_t s) eqn:T; try discriminate. injection S as <-. unfold cleanup. destruct (f_kind (s_cfg s)); cbn; rewrite ?CR, ?T; split; auto; lia.
  - destruct (s_t s) as [|[|]| | | | | | |] eqn:T; try discriminate; unfold send in S.
    + destruct ok; injection S as <-; cbn; rewrite CR, C; split; auto; lia.
    + injection S as <-; cbn; rewrite CR, C; split; auto; lia.
    + destruct (s_error s); injection S as <-; cbn; rewrite CR, C; split; auto; lia.
    + destruct (Nat.ltb _ _); [|discriminate]. injection S as <-. cbn; rewrite CR, C; split; auto; lia.
    + destruct (Nat.ltb _ _); [|discriminate]. injection S as <-. cbn; rewrite CR, C; split; auto; lia.
    + injection S as <-. cbn; rewrite CR, C; split; auto; lia.
  - destruct (s_t s) as [|[|p rest]| | | | | | |] eqn:T; try discriminate. unfold socket_step in S.
    destruct (f_kind (s_cfg s)), d as [e|], conn; cbv zeta in S; try discriminate; try (destruct (fresh e (s_table s)) eqn:F; cbn [negb] in S; [|discriminate]; destruct opt; cbn [negb] in S; [destruct (f_addr (s_cfg s)) as [a|]|]); try (destruct (in_use a p (s_table s) (s_others s))); injection S as <-; cbn; rewrite ?CR, ?C; split; auto; lia.
  - destruct (s_t s) eqn:T; try discriminate. rewrite M in S. injection S as <-. cbn; rewrite CR, C; split; auto; lia.
Qed.
(** After stop() the thread has at most so many steps of its own to make, and one of them is possible until the thread has ended and been joined.
    Missing: a full channel ([c74_deadlock_refuted]), a message of TCP that does not arrive ([c74_read_refuted]), an exception ([c74_zmq_refuted]); the reactor is taken to run its timer. *)
Theorem c74_stopped_partial cap late t o l s : sane t -> rx_go cap late l (rx_init t o) = Some s -> s_c s = CJoin ->
  (forall k s', Forall own_step k -> rx_go cap late k s = Some s' -> (List.length k <= List.length (f_ports (s_cfg s)) + 7)%nat) /\
  (s_crash s = false -> (forall n, s_t s <> TRead n) -> (List.length (s_out s) < cap)%nat -> exists x s', own_step x /\ rx_step cap late x s = Some s' /\ (s_c s' = CIdle -> s_t s = TDone)).
Proof.
  intros SA G C. pose proof (inv_go _ _ _ _ _ (inv_init t o SA) G) as I. split.
  - intros k s' F GK. assert (B : (left_to_do s <= List.length (f_ports (s_cfg s)) + 7)%nat).
    { unfold left_to_do. rewrite C. destruct (s_crash s); [lia|]. pose proof (i_phase _ I) as P. unfold phase in P. destruct (s_t s); try lia. destruct P as (_ & _ & d & E & _). rewrite E, app_length. lia. }
    assert (H : (List.length k <= left_to_do s)%nat); [|lia]. clear B G. revert s I C F GK. induction k as [|x k IH]; intros s I C F GK; cbn in GK |- *; [lia|]. inversion F; subst. destruct (rx_step cap late x s) as [u|] eqn:S; [|discriminate]. destruct (own_down _ _ _ _ _ I C H1 S) as (D & [J|(J & T)]).
    + specialize (IH u (inv_step _ _ _ _ _ I S) J H2 GK). lia.
    + destruct k as [|y k]; [cbn; lia|]. cbn in GK. inversion H2; subst. unfold rx_step in GK. rewrite J, T in GK. destruct (s_crash u); [discriminate|]. destruct y; try discriminate; destruct H3.
  - intros CR NR R. pose proof (i_main _ I) as M. unfold main in M. rewrite C in M. assert (L : Nat.ltb (List.length (s_out s)) cap = true) by (apply Nat.ltb_lt; exact R).
    assert (E : exists x s', own_step x /\ rx_step cap late x s = Some s' /\ (x = Joined \/ s_c s' = CJoin) /\ (x = Joined -> s_t s = TDone)).
    { unfold rx_step. rewrite CR. destruct (s_t s) as [|[|p r]| | | | | | |] eqn:T.
      - exists (Thread true). eexists. repeat split; [right; exact C|discriminate].
      - exists (Thread true). eexists. repeat split; [right; exact C|discriminate].
      - exists (Socket None true true). unfold socket_step. destruct (f_kind (s_cfg s)); eexists; (repeat split; [right; exact C|discriminate]).
      - exists (Thread true). destruct (s_error s); eexists; (repeat split; [right; exact C|discriminate]).
      - exists (Thread true). unfold send. rewrite L. eexists. repeat split; [right; exact C|discriminate].
      - exists Tick. rewrite M. eexists. repeat split; [right; exact C|discriminate].
      - exists (Thread true). unfold send. rewrite L. eexists. repeat split; [right; exact C|discriminate].
      - destruct (NR n eq_refl).
      - exists (Thread true). eexists. repeat split; [right; exact C|discriminate].
      - exists Joined. rewrite C. eexists. repeat split. left. reflexivity. }
    destruct E as (x & s' & E1 & E2 & [E3|E3] & E4); exists x, s'; (split; [exact E1|]; split; [exact E2|]); [intros _; exact (E4 E3)|congruence].
Qed.
(** A full channel: the thread waits in send() for the main thread, which waits in join() for the thread. *)
Definition stuck cap (s : sys) : Prop := s_c s = CJoin /\ s_t s = TSend /\ (cap <= List.length (s_out s))%nat.
Lemma stuck_go cap late l : forall s s', stuck cap s -> rx_go cap late l s = Some s' -> stuck cap s'.
Proof.
  induction l as [|x l IH]; intros s s' K G; cbn in G; [injection G as <-; exact K|]. destruct (rx_step cap late x s) as [t|] eqn:S; [|discriminate]. apply (IH t s'); [|exact G]. clear IH G. destruct K as (C & T & L). unfold rx_step in S. rewrite C, T in S. destruct (s_crash s); [discriminate|]. unfold send in S.
  destruct x; try discriminate.
  - destruct (Nat.ltb_spec (List.length (s_out s)) cap); [lia|discriminate].
  - destruct (existsb _ _); [discriminate|]. injection S as <-. repeat split; auto.
  - destruct (fresh _ _); [|discriminate]. injection S as <-. repeat split; auto.
  - destruct (find _ _) as [(e & [| | |])|]; try discriminate. injection S as <-. repeat split; auto.
Qed.
Lemma fill cap late n : forall s, s_crash s = false -> s_c s = CReady true -> s_t s = TLoop -> (List.length (s_out s) + n <= cap)%nat ->
  exists l s', rx_go cap late l s = Some s' /\ s_crash s' = false /\ s_c s' = CReady true /\ s_t s' = TLoop /\ List.length (s_out s') = (List.length (s_out s) + n)%nat.
Proof.
  induction n as [|n IH]; intros s CR C T L; [exists [], s; rewrite Nat.add_0_r; auto|]. set (s1 := set_t TLoop (set_out (s_out s ++ [NOther]) (set_t TSend s))).
  assert (LT : Nat.ltb (List.length (s_out s)) cap = true) by (apply Nat.ltb_lt; lia).
  assert (G : rx_go cap late [Report; Thread true] s = Some s1).
  { apply (go_cons _ _ _ _ _ (set_t TSend s)); [unfold rx_step; rewrite CR, T; reflexivity|]. apply (go_cons _ _ _ _ _ s1); [|reflexivity]. unfold rx_step. cbn [s_crash set_t s_t]. rewrite CR. unfold send. cbn [s_out set_t]. rewrite LT. reflexivity. }
  destruct (IH s1) as (l & s' & G' & A & B & D & E); auto; [cbn; rewrite app_length; cbn; lia|]. exists ([Report; Thread true] ++ l), s'. rewrite (go_app _ _ _ _ _ _ G). repeat split; auto. rewrite E. cbn. rewrite app_length. cbn. lia.
Qed.
Definition up_run : list lab := [Start (Cfg UDP (Some 0%Z) [4000%Z] UDP); Thread true; Socket (Some 5%Z) true true; Thread true; Thread true; Thread true; Spin].
Definition up_state : sys := Sys [(5%Z, Bound 0 4000)] [] (CReady true) TLoop (Cfg UDP (Some 0%Z) [4000%Z] UDP) 1 true true false [5%Z] [NIdentity 1] None [] [] [] false 0 false false.
Lemma up_reach cap late : (1 <= cap)%nat -> rx_go cap late up_run (rx_init [] []) = Some up_state.
Proof. intros N. destruct cap as [|cap]; [lia|]. reflexivity. Qed.
Theorem c74_deadlock_refuted cap late : (1 <= cap)%nat ->
  exists l s, rx_go cap late l (rx_init [] []) = Some s /\ s_c s = CJoin /\ forall k s', rx_go cap late k s = Some s' -> s_c s' = CJoin.
Proof.
  intros N. pose proof (up_reach cap late N) as G. assert (L : (List.length (s_out up_state) + (cap - 1) <= cap)%nat) by (cbn; lia). destruct (fill cap late (cap - 1) up_state eq_refl eq_refl eq_refl L) as (l & s1 & G1 & CR1 & C1 & T1 & L1). cbn in L1.
  assert (exists s2, rx_go cap late [Report; Stop] s1 = Some s2 /\ stuck cap s2) as (s2 & G2 & K).
  { eexists. split; [apply (go_cons _ _ _ _ _ (set_t TSend s1)); [unfold rx_step; rewrite CR1, T1; reflexivity|]; eapply go_cons; [unfold rx_step; cbn [s_crash s_c set_t]; rewrite CR1, C1; reflexivity|reflexivity]|]. repeat split; auto. cbn. lia. }
  exists (up_run ++ l ++ [Report; Stop]), s2. rewrite (go_app _ _ _ _ _ _ G), (go_app _ _ _ _ _ _ G1). split; [exact G2|]. split; [apply K|]. intros k s' GK. apply (stuck_go _ _ _ _ _ K GK).
Qed.
(** A message of TCP of which no more bytes come (the sender is gone: recv() returns 0, and the loop calls it again). *)
Lemma read_go cap late l : forall s s' n, s_c s = CJoin -> s_t s = TRead n -> Forall (fun x => forall k, x <> Bytes k) l -> rx_go cap late l s = Some s' -> s_c s' = CJoin.
Proof.
  induction l as [|x l IH]; intros s s' n C T F G; cbn in G; [injection G as <-; exact C|]. inversion F; subst. destruct (rx_step cap late x s) as [t|] eqn:S; [|discriminate]. assert (K : s_c t = CJoin /\ s_t t = TRead n); [|destruct K; eapply IH; eassumption]. clear IH G. unfold rx_step in S. rewrite C, T in S. destruct (s_crash s); [discriminate|].
  destruct x; try discriminate.
  - destruct (H1 n0 eq_refl).
  - destruct (existsb _ _); [discriminate|]. injection S as <-. auto.
  - destruct (fresh _ _); [|discriminate]. injection S as <-. auto.
  - destruct (find _ _) as [(e & [| | |])|]; try discriminate. injection S as <-. auto.
Qed.
Theorem c74_read_refuted cap late n : (1 <= cap)%nat -> (1 <= n)%nat ->
  exists l s, rx_go cap late l (rx_init [] []) = Some s /\ s_c s = CJoin /\ forall k s', Forall (fun x => forall j, x <> Bytes j) k -> rx_go cap late k s = Some s' -> s_c s' = CJoin.
Proof.
  intros N M. exists [Start (Cfg TCP (Some 1%Z) [4000%Z] TCP); Thread true; Socket (Some 5%Z) true true; Thread true; Thread true; Thread true; Spin; Packet n; Stop].
  exists (Sys [(5%Z, Conn)] [] CJoin (TRead n) (Cfg TCP (Some 1%Z) [4000%Z] TCP) 1 false true false [5%Z] [NIdentity 1] None [] [] [] false 0 false false). split; [destruct cap as [|cap]; [lia|]; destruct n as [|n]; [lia|]; reflexivity|]. split; [reflexivity|]. intros k s' F G. eapply read_go; [| |exact F|exact G]; reflexivity.
Qed.

(** ** Releases *)
Definition known_now (s : sys) : Prop := s_c s = CReady true /\ s_known s = Some (s_gen s) /\ (forall g, In (NIdentity g) (s_out s) -> g = s_gen s).
Lemma kept_step cap late x s s' : inv s -> known_now s -> serving (s_t s) -> x <> Stop -> rx_step cap late x s = Some s' ->
  known_now s' /\ serving (s_t s') /\ s_lost s' = s_lost s /\ s_got s' ++ s_inq s' = s_got s ++ s_inq s ++ released [x].
Proof.
  intros I (C & K & O) SV NS S. pose proof (i_main _ I) as M. unfold main in M. rewrite C in M. destruct M as (RU & RN). unfold known_now. unfold rx_step in S. destruct (s_crash s); [discriminate|]. rewrite C in S. destruct x as [f| | | |i|id|ok|d opt conn| | |n|n| |oo|d|d]; try discriminate; cbn [released flat_map]; rewrite ?app_nil_r.
  - congruence.
  - destruct (nth_error (s_out s) i) as [m|] eqn:N; [|discriminate]. apply nth_error_In in N. injection S as <-. destruct m as [g|]; cbn [s_c s_known s_gen s_out s_t s_lost s_got s_inq set_known set_out]; (split; [split; [exact C|split]|auto]).
    + f_equal. apply O. exact N.
    + intros k J. apply O. eapply in_but. exact J.
    + exact K.
    + intros k J. apply O. eapply in_but. exact J.
  - rewrite K in S. assert (E : match s_t s with TDone => false | _ => Nat.eqb (s_gen s) (s_gen s) end = true) by (destruct (s_t s); try destruct SV; apply Nat.eqb_refl). rewrite E in S. injection S as <-. cbn. split; [auto|]. split; [exact SV|]. split; [reflexivity|]. reflexivity.
  - destruct (s_t s) as [|[|]| | | | | | |] eqn:T; try discriminate; try destruct SV; unfold send in S; (destruct (Nat.ltb _ _); [|discriminate]); injection S as <-; cbn; (split; [split; [exact C|split; [exact K|]]|auto]); intros g J; apply in_app_or in J as [J|[J|[]]]; auto; [congruence|discriminate].
  - destruct (s_t s) as [|[|p rest]| | | | | | |]; try discriminate. destruct SV.
  - destruct (s_t s) eqn:T; try discriminate. rewrite RN in S. injection S as <-. rewrite T. auto.
  - destruct (s_t s) eqn:T; try discriminate. injection S as <-. cbn. auto.
  - destruct (s_t s) eqn:T; try discriminate. destruct (same_kind _ _); [destruct (f_kind (s_cfg s)), n|]; injection S as <-; cbn; rewrite ?T; auto.
  - destruct (s_t s); try discriminate. destruct (_ && _); [|discriminate]. injection S as <-. cbn. destruct (Nat.eqb _ _); cbn; auto.
  - destruct (s_t s) eqn:T; try discriminate. destruct (s_inq s) as [|id q]; [discriminate|]. injection S as <-. cbn. rewrite T. split; [auto|]. split; [exact Logic.I|]. split; [reflexivity|]. rewrite <- app_assoc. reflexivity.
  - destruct (existsb _ oo); [discriminate|]. injection S as <-. cbn; auto.
  - destruct (fresh d (s_table s)); [|discriminate]. injection S as <-. cbn. auto.
  - destruct (find _ _) as [(e & [| | |])|] eqn:F; try discriminate. injection S as <-. cbn. auto.
Qed.
(** Once the main thread knows the thread there is, every release it passes on reaches the decoder, in order, or is waiting for it, until the thread is stopped. *)
Theorem c74_kept cap late t o l s k s' : sane t -> rx_go cap late l (rx_init t o) = Some s -> s_c s = CReady true -> s_known s = Some (s_gen s) -> (forall g, In (NIdentity g) (s_out s) -> g = s_gen s) ->
  rx_go cap late k s = Some s' -> no_stop k ->
  s_lost s' = s_lost s /\ s_got s' ++ s_inq s' = s_got s ++ s_inq s ++ released k /\ serving (s_t s').
Proof.
  intros SA G C K O G' NS. pose proof (inv_go _ _ _ _ _ (inv_init t o SA) G) as I. destruct (c74_started _ _ _ _ _ _ SA G C) as (SV & _ & _). assert (KN : known_now s) by (split; auto). clear G C K O. revert s I SV KN G'. induction k as [|x k IH]; intros s I SV KN G'; cbn in G'; [injection G' as <-; rewrite app_nil_r; auto|]. inversion NS; subst. destruct (rx_step cap late x s) as [u|] eqn:S; [|discriminate].
  destruct (kept_step _ _ _ _ _ I KN SV H1 S) as (A & B & D & E). destruct (IH H2 u (inv_step _ _ _ _ _ I S) B A G') as (F & H & J). split; [congruence|]. split; [|exact J]. rewrite H, app_assoc, E, <- !app_assoc. do 2 f_equal. cbn. rewrite app_nil_r. reflexivity.
Qed.
(** No release is there twice or out of nothing. *)
Theorem c74_conserved cap late t o l s : sane t -> rx_go cap late l (rx_init t o) = Some s -> Permutation (released l) (s_got s ++ s_inq s ++ s_lost s).
Proof.
  intros SA. assert (K : forall l s0 s, inv s0 -> rx_go cap late l s0 = Some s -> Permutation ((s_got s0 ++ s_inq s0 ++ s_lost s0) ++ released l) (s_got s ++ s_inq s ++ s_lost s)); [|intros G; apply (K l _ _ (inv_init t o SA) G)].
  clear l s. induction l as [|x l IH]; intros s0 s I G; cbn in G; [injection G as <-; cbn; rewrite app_nil_r; apply Permutation_refl|]. destruct (rx_step cap late x s0) as [u|] eqn:S; [|discriminate]. rewrite <- (IH u s (inv_step _ _ _ _ _ I S) G). replace (released (x :: l)) with (released [x] ++ released l) by (unfold released; cbn [flat_map]; rewrite app_nil_r; reflexivity). rewrite app_assoc. apply Permutation_app_tail. clear IH G.
  assert (Q : s_t s0 = TDone -> s_inq s0 = []) by (intros T; pose proof (i_phase _ I) as P; unfold phase in P; rewrite T in P; apply P). pose proof (i_main _ I) as M. unfold main in M.
  unfold rx_step in S. destruct (s_crash s0); [discriminate|]. destruct x as [f| | | |i|id|ok|d opt conn| | |n|n| |oo|d|d]; cbn [released flat_map]; rewrite ?app_nil_r.
  - destruct (s_c s0); try discriminate. injection S as <-. cbn. rewrite (Q M). apply Permutation_refl.
  - destruct (s_c s0) as [|n| |]; try discriminate. destruct (s_running s0), (s_error s0), (late (n + 1)%N); injection S as <-; apply Permutation_refl.
  - destruct (s_c s0); try discriminate. injection S as <-. apply Permutation_refl.
  - destruct (s_c s0), (s_t s0); try discriminate. injection S as <-. unfold cleanup. destruct (f_kind (s_cfg s0)); apply Permutation_refl.
  - destruct (s_c s0), (nth_error (s_out s0) i) as [[]|]; try discriminate; injection S as <-; apply Permutation_refl.
  - assert (u = if match s_known s0, s_t s0 with Some g, TDone => false | Some g, _ => Nat.eqb g (s_gen s0) | None, _ => false end
                 then set_in (s_inq s0 ++ [id]) (s_got s0) (s_lost s0) s0 else set_in (s_inq s0) (s_got s0) (s_lost s0 ++ [id]) s0) as -> by (destruct (s_c s0); congruence).
    match goal with |- context [if ?b then _ else _] => destruct b end; cbn; rewrite <- !app_assoc; apply Permutation_app_head; apply Permutation_app_head; [apply Permutation_app_comm|apply Permutation_refl].
  - destruct (s_t s0) as [|[|]| | | | | | |] eqn:T; try discriminate; unfold send in S.
    + destruct ok; injection S as <-; apply Permutation_refl.
    + injection S as <-. apply Permutation_refl.
    + destruct (s_error s0); injection S as <-; apply Permutation_refl.
    + destruct (Nat.ltb _ _); [|discriminate]. injection S as <-. apply Permutation_refl.
    + destruct (Nat.ltb _ _); [|discriminate]. injection S as <-. apply Permutation_refl.
    + injection S as <-. cbn. apply Permutation_app_head. apply Permutation_app_comm.
  - destruct (s_t s0) as [|[|p rest]| | | | | | |]; try discriminate. unfold socket_step in S. destruct (f_kind (s_cfg s0)), d as [e|], conn; cbv zeta in S; try discriminate; try (destruct (fresh e (s_table s0)); cbn [negb] in S; [|discriminate]; destruct opt; cbn [negb] in S; [destruct (f_addr (s_cfg s0)) as [a|]|]); try (destruct (in_use a p (s_table s0) (s_others s0))); injection S as <-; apply Permutation_refl.
  - destruct (s_t s0); try discriminate. destruct (s_run s0); injection S as <-; apply Permutation_refl.
  - destruct (s_t s0); try discriminate. injection S as <-; apply Permutation_refl.
  - destruct (s_t s0); try discriminate. destruct (same_kind _ _); [destruct (f_kind (s_cfg s0)), n|]; injection S as <-; apply Permutation_refl.
  - destruct (s_t s0); try discriminate. destruct (_ && _); [|discriminate]. injection S as <-. apply Permutation_refl.
  - destruct (s_t s0); try discriminate. destruct (s_inq s0) as [|id q]; [discriminate|]. injection S as <-. cbn. rewrite <- app_assoc. apply Permutation_refl.
  - destruct (existsb _ oo); [discriminate|]. injection S as <-. apply Permutation_refl.
  - destruct (fresh d (s_table s0)); [|discriminate]. injection S as <-. apply Permutation_refl.
  - destruct (find _ _) as [(e & [| | |])|]; try discriminate. injection S as <-. apply Permutation_refl.
Qed.
(** Before the identity is read, and while the old thread is stopped, releases are dropped: the buffers are lost. *)
Theorem c74_release_refuted cap late id : (1 <= cap)%nat ->
  (exists s, rx_go cap late (up_run ++ [Release id]) (rx_init [] []) = Some s /\ s_c s = CReady true /\ serving (s_t s) /\ s_lost s = [id] /\ s_got s ++ s_inq s = []) /\
  (exists s, rx_go cap late (up_run ++ [MainRecv 0; Release id; Stop; Tick; Thread true; Joined] ++ up_run ++ [MainRecv 0]) (rx_init [] []) = Some s /\ s_c s = CReady true /\ serving (s_t s) /\ s_lost s = [id] /\ s_got s ++ s_inq s = []).
Proof.
  intros N. destruct cap as [|cap]; [lia|]. split.
  - exists (Sys [(5%Z, Bound 0 4000)] [] (CReady true) TLoop (Cfg UDP (Some 0%Z) [4000%Z] UDP) 1 true true false [5%Z] [NIdentity 1] None [] [] [id] false 0 false false). split; [reflexivity|]. cbn. auto.
  - exists (Sys [(5%Z, Bound 0 4000)] [] (CReady true) TLoop (Cfg UDP (Some 0%Z) [4000%Z] UDP) 2 true true false [5%Z] [] (Some 2%nat) [] [] [id] false 0 false false). split; [reflexivity|]. cbn. auto.
Qed.

(** ** What is undefined *)
Definition cfg_ok (P : cfg -> Prop) (s : sys) : Prop := P (s_cfg s).
Lemma cfg_step cap late P x s s' : cfg_ok P s -> starts_with P [x] -> rx_step cap late x s = Some s' -> cfg_ok P s' /\
  (s_undef s' = s_undef s \/ same_kind (f_kind (s_cfg s)) (f_decoder (s_cfg s)) = false) /\ (s_crash s' = s_crash s \/ f_kind (s_cfg s) = ZMQ).
Proof.
  unfold cfg_ok. intros K F S. inversion F; subst. unfold rx_step in S. destruct (s_crash s) eqn:CR; [discriminate|]. destruct x as [f| | | |i|id|ok|d opt conn| | |n|n| |oo|d|d].
  - destruct (s_c s); try discriminate. injection S as <-. cbn. auto.
  - destruct (s_c s) as [|n| |]; try discriminate. destruct (s_running s), (s_error s), (late (n + 1)%N); injection S as <-; cbn; auto.
  - destruct (s_c s); try discriminate. injection S as <-. cbn; auto.
  - destruct (s_c s), (s_t s); try discriminate. injection S as <-. unfold cleanup. destruct (f_kind (s_cfg s)); cbn; auto.
  - destruct (s_c s), (nth_error (s_out s) i) as [[]|]; try discriminate; injection S as <-; cbn; auto.
  - destruct (s_c s); try discriminate; injection S as <-; match goal with |- context [if ?b then _ else _] => destruct b end; cbn; auto.
  - destruct (s_t s) as [|[|]| | | | | | |] eqn:T; try discriminate; unfold send in S.
    + destruct ok; injection S as <-; cbn; auto.
    + injection S as <-; cbn; auto.
    + destruct (s_error s); injection S as <-; cbn; auto.
    + destruct (Nat.ltb _ _); [|discriminate]. injection S as <-. cbn; auto.
    + destruct (Nat.ltb _ _); [|discriminate]. injection S as <-. cbn; auto.
    + injection S as <-. cbn; auto.
  - destruct (s_t s) as [|[|p rest]| | | | | | |]; try discriminate. unfold socket_step in S. destruct (f_kind (s_cfg s)) eqn:FK, d as [e|], conn; cbv zeta in S; try discriminate; try (destruct (fresh e (s_table s)); cbn [negb] in S; [|discriminate]; destruct opt; cbn [negb] in S; [destruct (f_addr (s_cfg s)) as [a|]|]); try (destruct (in_use a p (s_table s) (s_others s))); injection S as <-; cbn; auto.
  - destruct (s_t s); try discriminate. destruct (s_run s); injection S as <-; cbn; auto.
  - destruct (s_t s); try discriminate. injection S as <-; cbn; auto.
  - destruct (s_t s); try discriminate. destruct (same_kind _ _) eqn:SK; [destruct (f_kind (s_cfg s)) eqn:FK, n|]; injection S as <-; cbn; auto.
  - destruct (s_t s); try discriminate. destruct (_ && _); [|discriminate]. injection S as <-. cbn; auto.
  - destruct (s_t s), (s_inq s); try discriminate. injection S as <-. cbn; auto.
  - destruct (existsb _ oo); [discriminate|]. injection S as <-. cbn; auto.
  - destruct (fresh d (s_table s)); [|discriminate]. injection S as <-. cbn. auto.
  - destruct (find _ _) as [(e & [| | |])|]; try discriminate. injection S as <-. cbn; auto.
Qed.
(** Missing: decoders of another type ([c74_decoder_refuted]), ZMQ ([c74_zmq_refuted]); the shift in start(), whose result is [late]. *)
Theorem c74_defined_partial cap late t o l s : rx_go cap late l (rx_init t o) = Some s ->
  (starts_with (fun f => f_decoder f = f_kind f) l -> s_undef s = false) /\ (starts_with (fun f => f_kind f <> ZMQ) l -> s_crash s = false).
Proof.
  intros G. split; intros F.
  - assert (K : cfg_ok (fun f => f_decoder f = f_kind f) (rx_init t o) /\ s_undef (rx_init t o) = false) by (split; reflexivity). revert K G. generalize (rx_init t o). induction l as [|x l IH]; intros s0 (K & U) G; cbn in G; [injection G as <-; exact U|]. inversion F; subst. destruct (rx_step cap late x s0) as [u|] eqn:S; [|discriminate]. destruct (cfg_step _ _ _ _ _ _ K (Forall_cons x H1 (Forall_nil _)) S) as (A & B & _). apply (IH H2 u); [|exact G]. split; [exact A|]. destruct B as [B|B]; [congruence|]. unfold cfg_ok in K. rewrite K in B. destruct (f_kind (s_cfg s0)); discriminate.
  - assert (K : cfg_ok (fun f => f_kind f <> ZMQ) (rx_init t o) /\ s_crash (rx_init t o) = false) by (split; [unfold cfg_ok; cbn; discriminate|reflexivity]). revert K G. generalize (rx_init t o). induction l as [|x l IH]; intros s0 (K & U) G; cbn in G; [injection G as <-; exact U|]. inversion F; subst. destruct (rx_step cap late x s0) as [u|] eqn:S; [|discriminate]. destruct (cfg_step _ _ _ _ _ _ K (Forall_cons x H1 (Forall_nil _)) S) as (A & _ & B). apply (IH H2 u); [|exact G]. split; [exact A|]. destruct B as [B|B]; [congruence|]. destruct (K B).
Qed.
(** A decoder for TCP with a thread for UDP: the first packet is given to a null pointer. *)
Theorem c74_decoder_refuted cap late n : (1 <= cap)%nat ->
  exists s, rx_go cap late [Start (Cfg UDP (Some 0%Z) [4000%Z] TCP); Thread true; Socket (Some 5%Z) true true; Thread true; Thread true; Thread true; Spin; Packet n] (rx_init [] []) = Some s /\ s_undef s = true.
Proof.
  intros N. destruct cap as [|cap]; [lia|]. exists (Sys [(5%Z, Bound 0 4000)] [] (CReady true) TLoop (Cfg UDP (Some 0%Z) [4000%Z] TCP) 1 true true false [5%Z] [NIdentity 1] None [] [] [] false 0 true false). split; reflexivity.
Qed.
(** An address ZMQ does not take ends the program. *)
Theorem c74_zmq_refuted cap late p r : exists s, rx_go cap late [Start (Cfg ZMQ None (p :: r) ZMQ); Thread true; Socket None true false] (rx_init [] []) = Some s /\ s_crash s = true /\ forall x, rx_step cap late x s = None.
Proof. exists (Sys [] [] (CSpin 0) (TPorts (p :: r)) (Cfg ZMQ None (p :: r) ZMQ) 1 true false false [] [] None [] [] [] false 0 false true). split; [reflexivity|]. split; [reflexivity|]. intros x. reflexivity. Qed.
(** start() gives up after 256 rounds of a millisecond rather than 1000, although the thread comes up. *)
Theorem c74_late_refuted cap : (1 <= cap)%nat ->
  exists s, rx_go cap modulo32 (Start (Cfg UDP (Some 0%Z) [4000%Z] UDP) :: repeat Spin 256 ++ [Thread true; Socket (Some 5%Z) true true; Thread true; Thread true; Thread true]) (rx_init [] []) = Some s /\
    s_c s = CReady false /\ s_error s = false /\ serving (s_t s) /\ listens (s_cfg s) (s_table s) (s_socks s) [4000%Z].
Proof.
  intros N. destruct cap as [|cap]; [lia|]. exists (Sys [(5%Z, Bound 0 4000)] [] (CReady false) TLoop (Cfg UDP (Some 0%Z) [4000%Z] UDP) 1 true true false [5%Z] [NIdentity 1] None [] [] [] true 0 false false). split; [vm_compute; reflexivity|]. repeat split. constructor; [|constructor]. exists 0%Z. split; [reflexivity|left; reflexivity].
Qed.

(** ** Cases *)
(** Two ports, releases, and an end that leaves the descriptors as they were: three of other parts. *)
Definition t_case : table := [(0%Z, Foreign); (1%Z, Foreign); (2%Z, Foreign)].
Lemma t_sane : sane t_case.
Proof. split; [repeat constructor; cbn; intuition discriminate|]. split; [intros e [<-|[<-|[<-|[]]]]; cbn; lia|]. intros d a p e b q [I|[I|[I|[]]]]; discriminate. Qed.
Definition run_case : list lab := [Start (Cfg UDP (Some 7%Z) [61649; 61650]%Z UDP); Thread true; Spin; Socket (Some 3%Z) true true; Open 4; Socket (Some 5%Z) true true; Thread true; Thread true; Spin; Thread true; MainRecv 0].
Example c74_started_case : exists s, rx_go 10 modulo32 run_case (rx_init t_case []) = Some s /\ s_c s = CReady true /\ s_socks s = [3; 5]%Z /\ s_table s = t_case ++ [(3, Bound 7 61649); (4, Foreign); (5, Bound 7 61650)]%Z /\ s_known s = Some (s_gen s) /\ s_out s = [].
Proof. eexists. split; [vm_compute; reflexivity|]. vm_compute. auto 10. Qed.
Example c74_kept_case : exists s, rx_go 10 modulo32 (run_case ++ [Release 1; Release 2; Packet 100; TakeIn]) (rx_init t_case []) = None /\
  rx_go 10 modulo32 (run_case ++ [Release 1; Release 2; TakeIn; Packet 100; Thread true]) (rx_init t_case []) = Some s /\ s_got s = [1%Z] /\ s_inq s = [2%Z].
Proof. eexists. split; [vm_compute; reflexivity|]. split; [vm_compute; reflexivity|]. vm_compute. auto. Qed.
Example c74_clean_case : exists s, rx_go 10 modulo32 (run_case ++ [Release 1; Stop; Tick; Thread true; Joined]) (rx_init t_case []) = Some s /\ s_c s = CIdle /\ s_errors s = 0%nat /\ s_table s = t_case ++ [(4%Z, Foreign)] /\ s_lost s = [1%Z].
Proof. eexists. split; [vm_compute; reflexivity|]. vm_compute. auto. Qed.
Example c74_refused_case : exists s, rx_go 10 modulo32 [Start (Cfg TCP None [1%Z] TCP); Thread true; Socket (Some 3%Z) true true; Thread true; Spin] (rx_init t_case []) = Some s /\ s_c s = CReady false /\ s_errors s = 1%nat /\ s_table s = t_case ++ [(3%Z, Plain)].
Proof. eexists. split; [vm_compute; reflexivity|]. vm_compute. auto. Qed.
Example c74_stopped_case : exists s, rx_go 10 modulo32 (run_case ++ [Report; Stop]) (rx_init t_case []) = Some s /\ s_c s = CJoin /\ s_crash s = false /\ s_t s = TSend /\ (List.length (s_out s) < 10)%nat /\
  exists s', Forall own_step [Thread true; Tick; Thread true; Joined] /\ rx_go 10 modulo32 [Thread true; Tick; Thread true; Joined] s = Some s' /\ s_c s' = CIdle.
Proof. eexists. split; [vm_compute; reflexivity|]. split; [reflexivity|]. split; [reflexivity|]. split; [reflexivity|]. split; [vm_compute; lia|]. eexists. split; [repeat constructor|]. split; [vm_compute; reflexivity|reflexivity]. Qed.

Print Assumptions c74_started.
Print Assumptions c74_refused.
Print Assumptions c74_others.
Print Assumptions c74_clean_partial.
Print Assumptions c74_leak_refuted.
Print Assumptions c74_stopped_partial.
Print Assumptions c74_deadlock_refuted.
Print Assumptions c74_read_refuted.
Print Assumptions c74_kept.
Print Assumptions c74_conserved.
Print Assumptions c74_release_refuted.
Print Assumptions c74_defined_partial.
Print Assumptions c74_decoder_refuted.
Print Assumptions c74_zmq_refuted.
Print Assumptions c74_late_refuted.
