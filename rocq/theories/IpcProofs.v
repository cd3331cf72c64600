From Coq Require Import String Ascii Lia.
From Verif Require Import Base IpcModel IpcSpec.
Local Open Scope list_scope.
Local Open Scope Z_scope.

(** * Endpoints *)
Lemma snoc_split {A} (h : list A) o x b y : h ++ [o] = x ++ b :: y -> (y = [] /\ x = h /\ b = o) \/ exists y', y = y' ++ [o] /\ h = x ++ b :: y'.
Proof.
  intros E. destruct y as [|c y] using rev_ind.
  - apply app_inj_tail in E. destruct E as (-> & ->). left. auto.
  - clear IHy. right. exists y. change (b :: y ++ [c]) with ((b :: y) ++ [c]) in E. rewrite app_assoc in E. apply app_inj_tail in E. destruct E as (-> & ->). auto.
Qed.
Lemma holds_snoc h o ep a : holds (h ++ [o]) ep a <-> o = Bind ep (Some a) \/ (o <> Unbind ep /\ holds h ep a).
Proof.
  split.
  - intros (x & y & E & N). destruct (snoc_split _ _ _ _ _ E) as [(-> & -> & <-)|(y' & -> & ->)]; [left; reflexivity|]. right. split; [intros ->; apply N, in_or_app; right; left; reflexivity|]. exists x, y'. split; [reflexivity|]. intros I. apply N, in_or_app. auto.
  - intros [->|(N & x & y & -> & NI)]; [exists h, []; auto|]. exists x, (y ++ [o]). split; [rewrite <- app_assoc; reflexivity|]. intros I. apply in_app_or in I. destruct I as [I|[->|[]]]; [exact (NI I)|exact (N eq_refl)].
Qed.
Lemma once_snoc h o : once (h ++ [o]) -> once h.
Proof. intros O x ep a y E. apply (O x ep a (y ++ [o])). rewrite E, <- app_assoc. reflexivity. Qed.
Lemma look_erase_ne k k' m : k' <> k -> look k' (erase k m) = look k' m.
Proof.
  intros N. induction m as [|(x, v) r IH]; [reflexivity|]. cbn [erase filter fst look]. destruct (String.eqb_spec k x) as [<-|K]; cbn [negb].
  - destruct (String.eqb_spec k' k); [contradiction|exact IH].
  - cbn [look]. destruct (String.eqb k' x); [reflexivity|exact IH].
Qed.
Lemma look_erase_eq k m : look k (erase k m) = None.
Proof. induction m as [|(x, v) r IH]; [reflexivity|]. cbn [erase filter fst]. destruct (String.eqb k x) eqn:K; cbn [negb]; [exact IH|]. cbn [look]. rewrite K. exact IH. Qed.
Record ends (h : list act) (c : channel) : Prop := {
  e_map : forall ep a, look ep (c_map c) = Some a <-> holds h ep a;
  e_lis : forall a, In a (c_listens c) <-> exists ep, holds h ep a;
  e_inj : forall ep ep' a, holds h ep a -> holds h ep' a -> ep = ep' }.
Lemma ends_init : ends [] channel_init.
Proof.
  assert (N : forall ep a, ~ holds [] ep a) by (intros ep a ([|? ?] & y & E & _); discriminate).
  split.
  - intros ep a. split; [discriminate|intros K; destruct (N _ _ K)].
  - intros a. split; [intros []|intros (ep & K); destruct (N _ _ K)].
  - intros ep ep' a K. destruct (N _ _ K).
Qed.
Lemma ends_step h c o : ends h c -> once (h ++ [o]) -> ends (h ++ [o]) (do_act c o).
Proof.
  intros [M L J] O. destruct o as [ep [a|]|ep].
  - destruct (O h ep a [] eq_refl) as (F & N1 & N2). unfold do_act, bind. assert (Z : (256 <? Z.of_nat (String.length a) + 1) = false) by (apply Z.ltb_ge; lia). rewrite Z. cbn [fst]. split; cbn [c_map c_listens].
    + intros ep' a'. rewrite holds_snoc, <- M. cbn [look]. destruct (String.eqb_spec ep' ep) as [->|NE].
      * split; [intros E; injection E as <-; left; reflexivity|]. intros [E|(_ & K)]; [injection E as <-; reflexivity|]. apply M in K. destruct (N1 _ K).
      * rewrite look_erase_ne by exact NE. split; [intros K; right; split; [discriminate|exact K]|]. intros [E|(_ & K)]; [injection E as <- <-; destruct (NE eq_refl)|exact K].
    + intros a'. split.
      * intros I. apply in_app_or in I. destruct I as [I|[<-|[]]]; [|exists ep; apply holds_snoc; left; reflexivity]. apply L in I. destruct I as (ep' & K). exists ep'. apply holds_snoc. right. split; [discriminate|exact K].
      * intros (ep' & K). apply holds_snoc in K. apply in_or_app. destruct K as [E|(_ & K)]; [injection E as <- <-; right; left; reflexivity|left; apply L; exists ep'; exact K].
    + intros e1 e2 a' K1 K2. apply holds_snoc in K1, K2. destruct K1 as [E1|(_ & K1)], K2 as [E2|(_ & K2)].
      * congruence.
      * injection E1 as <- <-. destruct (N2 _ K2).
      * injection E2 as <- <-. destruct (N2 _ K1).
      * exact (J _ _ _ K1 K2).
  - cbn [do_act bind fst]. assert (H : forall e a, holds (h ++ [Bind ep None]) e a <-> holds h e a) by (intros e a; rewrite holds_snoc; split; [intros [E|(_ & K)]; [discriminate|exact K]|intros K; right; split; [discriminate|exact K]]). split.
    + intros e a. rewrite H. apply M.
    + intros a. rewrite L. split; intros (e & K); exists e; apply H; exact K.
    + intros e1 e2 a K1 K2. apply H in K1, K2. exact (J _ _ _ K1 K2).
  - assert (H : forall e a, holds (h ++ [Unbind ep]) e a <-> e <> ep /\ holds h e a).
    { intros e a. rewrite holds_snoc. split; [intros [E|(N & K)]; [discriminate|split; [intros ->; destruct (N eq_refl)|exact K]]|]. intros (N & K). right. split; [intros E; injection E as ->; destruct (N eq_refl)|exact K]. }
    assert (JJ : forall e1 e2 a, holds (h ++ [Unbind ep]) e1 a -> holds (h ++ [Unbind ep]) e2 a -> e1 = e2) by (intros e1 e2 a K1 K2; apply H in K1, K2; exact (J _ _ _ (proj2 K1) (proj2 K2))).
    unfold do_act, unbind. destruct (look ep (c_map c)) as [a0|] eqn:E.
    + assert (X : existsb (String.eqb a0) (c_listens c) = true) by (apply existsb_exists; exists a0; split; [apply L; exists ep; apply M, E|apply String.eqb_refl]). rewrite X. cbn [fst]. split; cbn [c_map c_listens]; [| |exact JJ].
      * intros e a. rewrite H, <- M. destruct (string_dec e ep) as [->|N]; [rewrite look_erase_eq; split; [discriminate|intros (N & _); destruct (N eq_refl)]|]. rewrite look_erase_ne by exact N. split; [auto|intros (_ & K); exact K].
      * intros a. rewrite filter_In, L. split.
        -- intros ((e & K) & N). apply Bool.negb_true_iff, String.eqb_neq in N. exists e. apply H. split; [|exact K]. intros ->. apply M in K. congruence.
        -- intros (e & K). apply H in K. destruct K as (N & K). split; [exists e; exact K|]. apply Bool.negb_true_iff, String.eqb_neq. intros ->. apply N, (J _ _ a); [exact K|apply M, E].
    + cbn [fst]. split; [| |exact JJ].
      * intros e a. rewrite H, <- M. split; [intros K; split; [congruence|exact K]|intros (_ & K); exact K].
      * intros a. rewrite L. split; intros (e & K); exists e; [apply H; split; [intros ->; apply M in K; congruence|exact K]|apply H in K; exact (proj2 K)].
Qed.
Lemma ends_acts h : once h -> ends h (acts h channel_init).
Proof. induction h as [|o h IH] using rev_ind; intros O; [exact ends_init|]. unfold acts. rewrite fold_left_app. apply ends_step; [exact (IH (once_snoc _ _ O))|exact O]. Qed.

(** * Messages *)
Lemma sent_app d a b : sent d (a ++ b) = sent d a ++ sent d b.
Proof. induction a as [|[]]; cbn; try assumption; [reflexivity|]. destruct (string_dec _ _); cbn; congruence. Qed.
Lemma received_app d a b : received d (a ++ b) = received d a ++ received d b.
Proof. induction a as [|[]]; cbn; try assumption; [reflexivity|]. destruct (string_dec _ _); cbn; congruence. Qed.
Lemma addressed_app d a b : addressed d (a ++ b) = addressed d a ++ addressed d b.
Proof. induction a as [|[| | |? ? ? []|]]; cbn; try assumption; [reflexivity|]. destruct (string_dec _ _); cbn; congruence. Qed.
Lemma got_app d a b : got d (a ++ b) = got d a ++ got d b.
Proof. induction a as [|[]]; cbn; try assumption; [reflexivity|]. destruct (string_dec _ _); cbn; congruence. Qed.
Lemma known_in ids d : known ids d = true <-> In d ids.
Proof. unfold known. rewrite existsb_exists. split; [intros (x & I & E); apply String.eqb_eq in E; subst; exact I|intros I; exists d; split; [exact I|apply String.eqb_refl]]. Qed.
Lemma upd_eq {A} (f : string -> A) d v : upd f d v d = v. Proof. unfold upd. rewrite String.eqb_refl. reflexivity. Qed.
Lemma upd_ne {A} (f : string -> A) d d' v : d' <> d -> upd f d v d' = f d'. Proof. unfold upd. destruct (String.eqb_spec d' d); [contradiction|reflexivity]. Qed.
Definition pick (d : string) (q : list (string * string)) : list string := received d (map (fun x => RGot (fst x) (snd x)) q).
Record req (ids : list string) (h : list ev) (o : list out) (n : net) (q : list (string * string)) (ms : string -> list string) : Prop := {
  q_cur : forall d, n_cur n d = [];
  q_half : n_half n = None;
  q_in : n_in n = flat_map (fun x => [(fst x, true); (snd x, false)]) q;
  q_ids : forall x, In x q -> In (fst x) ids;
  q_got : forall i m, In (RGot i m) o -> In i ids;
  q_out : forall d, n_out n d = map (fun m => [m]) (ms d);
  q_none : forall d, ~ In d ids -> ms d = [];
  q_sent : forall d, sent d h = received d o ++ pick d q ++ ms d }.
Lemma req_init ids : req ids [] [] net_init [] (fun _ => []).
Proof. split; try reflexivity; intros; destruct H. Qed.
Lemma req_step ids h o n q ms e n1 o1 : req ids h o n q ms -> (forall d m, e <> DSend d m true) -> step ids e n = Some (n1, o1) -> exists q' ms', req ids (h ++ [e]) (o ++ o1) n1 q' ms'.
Proof.
  intros [C H I J G O Z T] S E. destruct n as [c ou i hf r w]. cbn [n_cur n_out n_in n_half n_rcur n_way] in *. subst hf. destruct e as [d m more|d| |p m more lost|d]; cbn [step] in E.
  - destruct (known ids d) eqn:K; [|discriminate]. cbn [negb] in E. destruct more; [destruct (S d m eq_refl)|]. injection E as <- <-. exists q, (upd ms d (ms d ++ [m])). apply known_in in K. split; cbn [n_cur n_out n_in n_half n_rcur n_way]; try assumption; try reflexivity.
    + intros d'. destruct (string_dec d' d) as [->|N]; [apply upd_eq|rewrite upd_ne by exact N; apply C].
    + intros i0 m0 X. rewrite app_nil_r in X. exact (G _ _ X).
    + intros d'. destruct (string_dec d' d) as [->|N]; [rewrite !upd_eq, O, C, map_app; reflexivity|rewrite !upd_ne by exact N; apply O].
    + intros d' N. rewrite upd_ne by (intros ->; contradiction). apply Z, N.
    + intros d'. rewrite sent_app, T, app_nil_r. cbn [sent]. destruct (string_dec d d') as [<-|N]; [rewrite upd_eq, !app_assoc; reflexivity|]. rewrite upd_ne by congruence. rewrite app_nil_r. reflexivity.
  - rewrite O in E. destruct (ms d) as [|m t] eqn:M; [discriminate|]. cbn [map] in E. injection E as <- <-. assert (K : In d ids) by (destruct (in_dec string_dec d ids) as [K|K]; [exact K|rewrite (Z _ K) in M; discriminate]). exists (q ++ [(d, m)]), (upd ms d t).
    split; cbn [n_cur n_out n_in n_half n_rcur n_way]; try assumption; try reflexivity.
    + rewrite I, flat_map_app. reflexivity.
    + intros x X. apply in_app_or in X. destruct X as [X|[<-|[]]]; [exact (J _ X)|exact K].
    + intros i0 m0 X. rewrite app_nil_r in X. exact (G _ _ X).
    + intros d'. destruct (string_dec d' d) as [->|N]; [rewrite !upd_eq; reflexivity|rewrite !upd_ne by exact N; apply O].
    + intros d' N. rewrite upd_ne by (intros ->; contradiction). apply Z, N.
    + intros d'. rewrite sent_app, T, app_nil_r. cbn [sent]. rewrite app_nil_r. unfold pick. rewrite map_app, received_app. cbn [map received fst snd]. destruct (string_dec d d') as [<-|N]; [rewrite upd_eq, M, <- !app_assoc; reflexivity|]. rewrite upd_ne by congruence. rewrite app_nil_r. reflexivity.
  - subst i. destruct q as [|(d, m) q]; [discriminate|]. cbn [flat_map fst snd app] in E. injection E as <- <-. exists q, ms. split; cbn [n_cur n_out n_in n_half n_rcur n_way]; try assumption; try reflexivity.
    + intros x X. apply J. right. exact X.
    + intros i0 m0 X. apply in_app_or in X. destruct X as [X|[X|[]]]; [exact (G _ _ X)|]. injection X as <- <-. exact (J (d, m) (or_introl eq_refl)).
    + intros d'. rewrite sent_app, T, received_app, <- !app_assoc. cbn [sent]. rewrite app_nil_r. unfold pick. cbn [map received fst snd]. destruct (string_dec d d'); reflexivity.
  - assert (E' : exists r' w', n1 = Net c ou i None r' w' /\ o1 = []).
    { destruct more; [injection E as <- <-; eauto|]. destruct (r ++ [p; m]) as [|d body]; [discriminate|]. injection E as <- <-. eauto. }
    destruct E' as (r' & w' & -> & ->). exists q, ms. split; cbn [n_cur n_out n_in n_half n_rcur n_way]; try assumption; try reflexivity.
    + intros i0 m0 X. rewrite app_nil_r in X. exact (G _ _ X).
    + intros d'. rewrite sent_app, T, !app_nil_r. cbn [sent]. rewrite ?app_nil_r. reflexivity.
  - destruct (w d) as [|(m, b) t]; [discriminate|]. injection E as <- <-. exists q, ms. split; cbn [n_cur n_out n_in n_half n_rcur n_way]; try assumption; try reflexivity.
    + intros i0 m0 X. apply in_app_or in X. destruct X as [X|[X|[]]]; [exact (G _ _ X)|discriminate].
    + intros d'. rewrite sent_app, T, received_app. cbn [sent received]. rewrite !app_nil_r. reflexivity.
Qed.
Lemma req_steps ids l : forall h o n q ms n1 o1, req ids h o n q ms -> single_requests l -> steps ids l n = Some (n1, o1) -> exists q' ms', req ids (h ++ l) (o ++ o1) n1 q' ms'.
Proof.
  induction l as [|e l IH]; intros h o n q ms n1 o1 R S E; cbn [steps] in E; [injection E as <- <-; rewrite !app_nil_r; eauto|].
  destruct (step ids e n) as [(n2, o2)|] eqn:E1; [|discriminate]. destruct (steps ids l n2) as [(n3, o3)|] eqn:E2; [|discriminate]. injection E as <- <-.
  assert (NE : forall d m, e <> DSend d m true) by (intros d m ->; apply (S d m); left; reflexivity).
  destruct (req_step _ _ _ _ _ _ _ _ _ R NE E1) as (q' & ms' & R'). rewrite (app_assoc o). change (e :: l) with ([e] ++ l). rewrite (app_assoc h). eapply IH; [exact R'|intros d m I; apply (S d m); right; exact I|exact E2].
Qed.
Record rep (ids : list string) (h : list ev) (o : list out) (n : net) (ms : string -> list string) : Prop := {
  p_cur : n_rcur n = [];
  p_way : forall d, n_way n d = map (fun m => (m, false)) (ms d);
  p_got : forall d, In d ids -> addressed d h = got d o ++ ms d;
  p_none : forall d, ~ In d ids -> got d o = [] /\ ms d = [] }.
Lemma rep_init ids : rep ids [] [] net_init (fun _ => []). Proof. split; try reflexivity. intros d _. split; reflexivity. Qed.
Lemma rep_step ids h o n ms e n1 o1 : rep ids h o n ms -> (forall d m l, e <> RSend d m true l) -> step ids e n = Some (n1, o1) -> exists ms', rep ids (h ++ [e]) (o ++ o1) n1 ms'.
Proof.
  intros [C W G Z] S E. destruct n as [c ou i hf r w]. cbn [n_rcur n_way] in *. subst r.
  assert (SAME : forall c' ou' i' hf', n1 = Net c' ou' i' hf' [] w -> (forall d, got d o1 = []) -> (forall d, addressed d [e] = []) -> exists ms', rep ids (h ++ [e]) (o ++ o1) n1 ms').
  { intros c' ou' i' hf' -> GO AD. exists ms. split; cbn [n_rcur n_way]; [reflexivity|exact W| |].
    - intros d K. rewrite addressed_app, got_app, AD, GO, !app_nil_r. exact (G d K).
    - intros d K. rewrite got_app, GO, app_nil_r. exact (Z d K). }
  destruct e as [d m more|d| |p m more lost|d]; cbn [step] in E; [destruct hf as [hh|]; cbv beta iota in E|destruct hf as [hh|]; cbv beta iota in E| | |destruct hf as [hh|]; cbv beta iota in E].
  - destruct (known ids d); cbn [negb] in E; [|discriminate]. destruct more; injection E as <- <-; (eapply SAME; [reflexivity|reflexivity|reflexivity]).
  - destruct (known ids d); cbn [negb] in E; [|discriminate]. destruct more; injection E as <- <-; (eapply SAME; [reflexivity|reflexivity|reflexivity]).
  - destruct (ou d) as [|x t]; [discriminate|]. injection E as <- <-. eapply SAME; reflexivity.
  - destruct (ou d) as [|x t]; [discriminate|]. injection E as <- <-. eapply SAME; reflexivity.
  - destruct hf as [p|].
    + destruct i as [|(m, b) t]; [discriminate|]. injection E as <- <-. eapply SAME; reflexivity.
    + destruct i as [|(p, b) [|(m, b') t]]; [discriminate|injection E as <- <-; eapply SAME; reflexivity|injection E as <- <-; eapply SAME; reflexivity].
  - destruct hf; [discriminate|]. destruct more; [destruct (S p m lost eq_refl)|]. cbn [app] in E. injection E as <- <-. destruct (known ids p && negb lost)%bool eqn:K.
    + apply andb_prop in K. destruct K as (K & L). destruct lost; [discriminate|]. apply known_in in K. exists (upd ms p (ms p ++ [m])). split; cbn [n_rcur n_way]; [reflexivity| | |].
      * intros d. destruct (string_dec d p) as [->|N]; [rewrite !upd_eq, W, map_app; reflexivity|rewrite !upd_ne by exact N; apply W].
      * intros d K'. rewrite addressed_app, (G d K'), app_nil_r. cbn [addressed]. destruct (string_dec p d) as [<-|N]; [rewrite upd_eq, app_assoc; reflexivity|rewrite upd_ne by congruence; apply app_nil_r].
      * intros d N. rewrite app_nil_r, upd_ne by (intros ->; contradiction). exact (Z d N).
    + exists ms. split; cbn [n_rcur n_way]; [reflexivity|exact W| |intros d N; rewrite app_nil_r; exact (Z d N)]. intros d K'. rewrite addressed_app, (G d K'), app_nil_r. cbn [addressed]. destruct lost; [apply app_nil_r|]. destruct (string_dec p d) as [<-|N]; [|apply app_nil_r]. apply known_in in K'. rewrite K' in K. discriminate.
  - rewrite W in E. destruct (ms d) as [|m t] eqn:M; [discriminate|]. cbn [map] in E. injection E as <- <-. exists (upd ms d t). split; cbn [n_rcur n_way]; [reflexivity| | |].
    + intros d'. destruct (string_dec d' d) as [->|N]; [rewrite !upd_eq; reflexivity|rewrite !upd_ne by exact N; apply W].
    + intros d' K. rewrite addressed_app, (G d' K), got_app. cbn [addressed got]. rewrite app_nil_r. destruct (string_dec d d') as [<-|N]; [rewrite upd_eq, M, <- app_assoc; reflexivity|rewrite upd_ne by congruence; rewrite app_nil_r; reflexivity].
    + intros d' N. destruct (Z d' N) as (Z1 & Z2). assert (d <> d') by congruence. rewrite got_app, Z1, upd_ne by congruence. cbn [got]. destruct (string_dec d d'); [contradiction|]. auto.
  - rewrite W in E. destruct (ms d) as [|m t] eqn:M; [discriminate|]. cbn [map] in E. injection E as <- <-. exists (upd ms d t). split; cbn [n_rcur n_way]; [reflexivity| | |].
    + intros d'. destruct (string_dec d' d) as [->|N]; [rewrite !upd_eq; reflexivity|rewrite !upd_ne by exact N; apply W].
    + intros d' K. rewrite addressed_app, (G d' K), got_app. cbn [addressed got]. rewrite app_nil_r. destruct (string_dec d d') as [<-|N]; [rewrite upd_eq, M, <- app_assoc; reflexivity|rewrite upd_ne by congruence; rewrite app_nil_r; reflexivity].
    + intros d' N. destruct (Z d' N) as (Z1 & Z2). assert (d <> d') by congruence. rewrite got_app, Z1, upd_ne by congruence. cbn [got]. destruct (string_dec d d'); [contradiction|]. auto.
Qed.
Lemma rep_steps ids l : forall h o n ms n1 o1, rep ids h o n ms -> single_replies l -> steps ids l n = Some (n1, o1) -> exists ms', rep ids (h ++ l) (o ++ o1) n1 ms'.
Proof.
  induction l as [|e l IH]; intros h o n ms n1 o1 R S E; cbn [steps] in E; [injection E as <- <-; rewrite !app_nil_r; eauto|].
  destruct (step ids e n) as [(n2, o2)|] eqn:E1; [|discriminate]. destruct (steps ids l n2) as [(n3, o3)|] eqn:E2; [|discriminate]. injection E as <- <-.
  assert (NE : forall d m l', e <> RSend d m true l') by (intros d m l' ->; apply (S d m l'); left; reflexivity).
  destruct (rep_step _ _ _ _ _ _ _ _ R NE E1) as (ms' & R'). rewrite (app_assoc o). change (e :: l) with ([e] ++ l). rewrite (app_assoc h). eapply IH; [exact R'|intros d m l' I; apply (S d m l'); right; exact I|exact E2].
Qed.

(** * Identities *)
Lemma as_float_small r : r < 2^24 -> as_float r = r. Proof. intros L. unfold as_float. apply Z.ltb_lt in L. rewrite L. reflexivity. Qed.
Lemma float_shape r : 2^24 <= r -> exists e q m, 1 <= e /\ e = Z.log2 r - 23 /\ r = q * 2^e + m /\ 0 <= m < 2^e /\ 2^23 <= q < 2^24 /\ as_float r = if (m <? 2^(e-1)) || ((m =? 2^(e-1)) && Z.even q) then q * 2^e else (q + 1) * 2^e.
Proof.
  intros L. assert (L2 : 24 <= Z.log2 r) by (change 24 with (Z.log2 (2^24)); apply Z.log2_le_mono, L). exists (Z.log2 r - 23), (r / 2^(Z.log2 r - 23)), (r mod 2^(Z.log2 r - 23)). set (e := Z.log2 r - 23) in *. assert (P : 0 < 2^e) by (apply Z.pow_pos_nonneg; lia).
  split; [lia|]. split; [reflexivity|]. split; [rewrite Z.mul_comm; apply Z.div_mod; lia|]. split; [apply Z.mod_pos_bound, P|]. split.
  - destruct (Z.log2_spec r ltac:(lia)) as (A & B). replace (Z.log2 r) with (23 + e) in A by lia. replace (Z.succ (Z.log2 r)) with (24 + e) in B by lia. rewrite Z.pow_add_r in A, B by lia. split; [apply Z.div_le_lower_bound; lia|apply Z.div_lt_upper_bound; lia].
  - unfold as_float. assert (N : (r <? 2^24) = false) by (apply Z.ltb_ge, L). rewrite N. reflexivity.
Qed.
Lemma float_nearest r : 0 <= r -> representable (as_float r) /\ forall x, representable x -> Z.abs (as_float r - r) <= Z.abs (x - r).
Proof.
  intros P. destruct (Z_lt_le_dec r (2^24)) as [L|L].
  - rewrite as_float_small by exact L. split; [exists r, 0; rewrite Z.mul_1_r; lia|]. intros x _. rewrite Z.sub_diag. apply Z.abs_nonneg.
  - destruct (float_shape r L) as (e & q & m & E1 & _ & R & M & Q & ->). assert (H : 2^e = 2 * 2^(e-1)) by (rewrite <- Z.pow_succ_r by lia; f_equal; lia). assert (PE : 0 < 2^(e-1)) by (apply Z.pow_pos_nonneg; lia). split.
    + assert (A : representable (q * 2^e)) by (exists q, e; lia). assert (B : representable ((q + 1) * 2^e)).
      { destruct (Z.eq_dec (q + 1) (2^24)) as [->|N]; [exists 1, (24 + e); rewrite Z.pow_add_r; lia|exists (q + 1), e; lia]. }
      destruct ((m <? _) || _)%bool; assumption.
    + intros x (k & f & K & F & ->).
      assert (D : k * 2^f <= q * 2^e \/ (q + 1) * 2^e <= k * 2^f).
      { destruct (Z_lt_le_dec f e) as [FE|FE].
        - left. assert (A : 2^f <= 2^(e-1)) by (apply Z.pow_le_mono_r; lia). nia.
        - replace f with ((f - e) + e) by lia. rewrite Z.pow_add_r by lia. assert (X : k * (2^(f-e) * 2^e) = (k * 2^(f-e)) * 2^e) by ring. rewrite X. destruct (Z_le_gt_dec (k * 2^(f-e)) q); [left|right]; apply Z.mul_le_mono_nonneg_r; lia. }
      destruct (m <? 2^(e-1)) eqn:C1; [apply Z.ltb_lt in C1; cbn [orb]; lia|]. apply Z.ltb_ge in C1. cbn [orb]. destruct (m =? 2^(e-1)) eqn:C2; [apply Z.eqb_eq in C2; destruct (Z.even q); cbn [andb]; lia|]. apply Z.eqb_neq in C2. cbn [andb]. lia.
Qed.
Lemma float_top r : 0 <= r < 2^31 -> (as_float r < 2^31 <-> r < 2^31 - 64) /\ 0 <= as_float r <= 2^31.
Proof.
  intros P. destruct (Z_lt_le_dec r (2^24)) as [L|L]; [rewrite as_float_small by exact L; lia|]. destruct (float_shape r L) as (e & q & m & E1 & E2 & R & M & Q & ->).
  assert (LE : e <= 7) by (assert (Z.log2 r < 31) by (apply Z.log2_lt_pow2; lia); lia). assert (C : e = 7 \/ e <= 6) by lia. destruct C as [->|C].
  - change (2^(7-1)) with 64. change (2^7) with 128 in *. destruct (m <? 64) eqn:C1; [apply Z.ltb_lt in C1; cbn [orb]; lia|]. apply Z.ltb_ge in C1. cbn [orb]. destruct (m =? 64) eqn:C2; [|apply Z.eqb_neq in C2; cbn [andb]; lia]. apply Z.eqb_eq in C2. cbn [andb]. destruct (Z.even q) eqn:EV; [|lia].
    apply Z.even_spec in EV. destruct EV as (k & EV). lia.
  - assert (A : 2^e <= 2^6) by (apply Z.pow_le_mono_r; lia). change (2^6) with 64 in A. assert (0 < 2^e) by lia. destruct ((m <? _) || _)%bool; nia.
Qed.
Lemma within_range r : 0 <= r < 2^31 -> (within 65536 r < 65536 <-> r < 2^31 - 64) /\ 0 <= within 65536 r <= 65536.
Proof.
  intros P. destruct (float_top r P) as (A & B). unfold within. split; [rewrite <- A; split; intros C|split; [apply Z.div_pos; lia|apply Z.div_le_upper_bound; lia]].
  - destruct (Z_lt_le_dec (as_float r) (2^31)) as [D|D]; [exact D|]. exfalso. assert (X : as_float r = 2^31) by lia. rewrite X in C. vm_compute in C. discriminate.
  - apply Z.div_lt_upper_bound; lia.
Qed.
Definition value (c : ascii) : Z := let n := Z.of_nat (nat_of_ascii c) in if n <? 58 then n - 48 else n - 87.
Definition reads (a : Z) (l : list ascii) : Z := fold_left (fun a c => 16 * a + value c) l a.
Lemma digits v : 0 <= v < 16 -> value (digit v) = v /\ is_hex (digit v).
Proof.
  intros V. assert (C : v = 0 \/ v = 1 \/ v = 2 \/ v = 3 \/ v = 4 \/ v = 5 \/ v = 6 \/ v = 7 \/ v = 8 \/ v = 9 \/ v = 10 \/ v = 11 \/ v = 12 \/ v = 13 \/ v = 14 \/ v = 15) by lia. unfold is_hex. cbn [In].
  repeat destruct C as [->|C]; [..|rewrite C]; (split; [reflexivity|]); vm_compute; tauto.
Qed.
Lemma hex_reads n : forall v, 0 <= v < 16 ^ Z.of_nat n -> reads 0 (hex n v) = v /\ Forall is_hex (hex n v).
Proof.
  induction n as [|n IH]; intros v V; [cbn in V; cbn; split; [lia|constructor]|]. cbn [hex]. destruct (v <? 16) eqn:L.
  - apply Z.ltb_lt in L. destruct (digits v ltac:(lia)) as (A & B). split; [unfold reads; cbn [fold_left]; rewrite A; lia|constructor; [exact B|constructor]].
  - apply Z.ltb_ge in L. rewrite Nat2Z.inj_succ, Z.pow_succ_r in V by lia. destruct (IH (v / 16)) as (A & B); [split; [apply Z.div_pos; lia|apply Z.div_lt_upper_bound; lia]|]. destruct (digits (v mod 16) (Z.mod_pos_bound v 16 eq_refl)) as (C & D). split.
    + unfold reads in *. rewrite fold_left_app, A. cbn [fold_left]. rewrite C. symmetry. apply Z.div_mod. discriminate.
    + apply Forall_app. split; [exact B|constructor; [exact D|constructor]].
Qed.
Lemma hex_length n : forall v k, (1 <= k)%nat -> 0 <= v < 16 ^ Z.of_nat n -> ((List.length (hex n v) <= k)%nat <-> v < 16 ^ Z.of_nat k).
Proof.
  induction n as [|n IH]; intros v k K V; [cbn in *; split; [intros _|lia]; assert (0 < 16 ^ Z.of_nat k) by (apply Z.pow_pos_nonneg; lia); lia|].
  assert (P : 16 ^ Z.of_nat k = 16 * 16 ^ Z.of_nat (k - 1)) by (rewrite <- Z.pow_succ_r by lia; f_equal; lia). assert (P1 : 0 < 16 ^ Z.of_nat (k - 1)) by (apply Z.pow_pos_nonneg; lia).
  cbn [hex]. destruct (v <? 16) eqn:L; [apply Z.ltb_lt in L; cbn; lia|]. apply Z.ltb_ge in L. rewrite app_length. cbn [List.length]. rewrite Nat2Z.inj_succ, Z.pow_succ_r in V by lia.
  assert (V' : 0 <= v / 16 < 16 ^ Z.of_nat n) by (split; [apply Z.div_pos; lia|apply Z.div_lt_upper_bound; lia]).
  assert (NE : (1 <= List.length (hex n (v / 16)))%nat). { destruct n as [|n']; [cbn in V'; assert (1 <= v / 16) by (apply Z.div_le_lower_bound; lia); lia|]. cbn [hex]. destruct (_ <? _); [cbn; lia|rewrite app_length; cbn; lia]. }
  destruct (Nat.eq_dec k 1) as [->|K1]; [cbn in P |- *; split; intros; lia|]. specialize (IH (v / 16) (k - 1)%nat ltac:(lia) V'). rewrite P. split; intros H.
  - assert (X : v / 16 < 16 ^ Z.of_nat (k - 1)) by (apply IH; lia). assert (v < 16 * (v / 16 + 1)) by (pose proof (Z.div_mod v 16 ltac:(discriminate)); pose proof (Z.mod_pos_bound v 16 eq_refl); lia). nia.
  - assert (X : v / 16 < 16 ^ Z.of_nat (k - 1)) by (apply Z.div_lt_upper_bound; lia). apply IH in X. lia.
Qed.
Lemma hex4_facts v : 0 <= v <= 65536 -> (4 <= List.length (hex4 v))%nat /\ ((List.length (hex4 v) <= 4)%nat <-> v < 65536) /\ reads 0 (hex4 v) = v /\ Forall is_hex (hex4 v).
Proof.
  intros V. assert (V8 : 0 <= v < 16 ^ Z.of_nat 8) by (cbn; lia). pose proof (hex_length 8 v 4 ltac:(lia) V8) as L. change (16 ^ Z.of_nat 4) with 65536 in L. destruct (hex_reads 8 v V8) as (A & B). unfold hex4. cbv zeta. set (s := hex 8 v) in *. rewrite app_length, repeat_length. split; [lia|]. split; [rewrite <- L; lia|]. split.
  - unfold reads in *. rewrite fold_left_app. assert (Z0 : forall k, fold_left (fun a c => 16 * a + value c) (repeat (digit 0) k) 0 = 0) by (induction k as [|k IH]; [reflexivity|]; cbn [repeat fold_left]; change (16 * 0 + value (digit 0)) with 0; exact IH). rewrite Z0. exact A.
  - apply Forall_app. split; [|exact B]. apply Forall_forall. intros x X. apply repeat_spec in X. subst x. vm_compute. tauto.
Qed.
Lemma within_near r r' : 0 <= r < 2^31 -> 0 <= r' < 2^31 -> within 65536 r = within 65536 r' -> Z.abs (r - r') < 32896.
Proof.
  assert (N : forall x, 0 <= x < 2^31 -> Z.abs (as_float x - x) <= 64).
  { intros x X. destruct (Z_lt_le_dec x (2^24)) as [L|L]; [rewrite as_float_small by exact L; lia|]. destruct (float_shape x L) as (e & q & m & E1 & E2 & R & M & Q & ->).
    assert (LE : e <= 7) by (assert (Z.log2 x < 31) by (apply Z.log2_lt_pow2; lia); lia). assert (H : 2^e = 2 * 2^(e-1)) by (rewrite <- Z.pow_succ_r by lia; f_equal; lia). assert (A : 2^(e-1) <= 2^6) by (apply Z.pow_le_mono_r; lia). change (2^6) with 64 in A.
    destruct (m <? 2^(e-1)) eqn:C1; [apply Z.ltb_lt in C1; cbn [orb]; lia|]. apply Z.ltb_ge in C1. cbn [orb]. destruct (m =? 2^(e-1)) eqn:C2; [apply Z.eqb_eq in C2; destruct (Z.even q); cbn [andb]; lia|]. apply Z.eqb_neq in C2. cbn [andb]. lia. }
  intros R R' E. unfold within in E. pose proof (N r R). pose proof (N r' R'). set (f := as_float r) in *. set (f' := as_float r') in *. pose proof (Z.div_mod (65536 * f) (2^31) ltac:(discriminate)). pose proof (Z.mod_pos_bound (65536 * f) (2^31) eq_refl). pose proof (Z.div_mod (65536 * f') (2^31) ltac:(discriminate)). pose proof (Z.mod_pos_bound (65536 * f') (2^31) eq_refl). rewrite E in *. lia.
Qed.
