(** Frames over TCP: proofs. *)
From Verif Require Import Base TcpModel TcpSpec.
Local Open Scope Z_scope.

Lemma store_in a l m x : a <= x < a + Z.of_nat (length l) -> store a l m x = nth (Z.to_nat (x - a)) l 0.
Proof. intros H. unfold store. replace ((a <=? x) && (x <? a + Z.of_nat (length l))) with true by lia. reflexivity. Qed.
Lemma store_out a l m x : ~ a <= x < a + Z.of_nat (length l) -> store a l m x = m x.
Proof. intros H. unfold store. replace ((a <=? x) && (x <? a + Z.of_nat (length l))) with false by lia. reflexivity. Qed.
Lemma store_app a l1 l2 m x : store (a + Z.of_nat (length l1)) l2 (store a l1 m) x = store a (l1 ++ l2) m x.
Proof.
  destruct (Z_lt_dec x a) as [L|L]; [rewrite !store_out by (rewrite ?app_length; lia); reflexivity|].
  destruct (Z_lt_dec x (a + Z.of_nat (length l1))) as [M|M].
  - rewrite store_out by lia. rewrite !store_in by (rewrite ?app_length; lia). rewrite app_nth1 by lia. reflexivity.
  - destruct (Z_lt_dec x (a + Z.of_nat (length l1) + Z.of_nat (length l2))) as [H|H].
    + rewrite store_in by lia. rewrite store_in by (rewrite app_length; lia). rewrite app_nth2 by lia. f_equal. lia.
    + rewrite !store_out by (rewrite ?app_length; lia). reflexivity.
Qed.
Lemma store_ext a l m m' x : (forall y, m y = m' y) -> store a l m x = store a l m' x. Proof. intros E. unfold store. destruct (_ && _); [reflexivity|apply E]. Qed.

Lemma loop_fill num : forall c p size got m, healthy c -> 0 <= got <= size -> size < 2 ^ 63 -> p + (size - got) <= manager_header + num * buffer_size -> size - got <= Z.of_nat (length (stream c)) ->
  exists c1 m1, read_loop num c p size got m = (c1, m1, size, Returned) /\ healthy c1 /\ stream c1 = skipn (Z.to_nat (size - got)) (stream c) /\ forall x, m1 x = store p (firstn (Z.to_nat (size - got)) (stream c)) m x.
Proof.
  induction c as [|a c IH]; intros p size got m HL G S P L; cbn [read_loop].
  - cbn in L. assert (size = got) as -> by lia. rewrite Z.ltb_irrefl, Z.sub_diag. exists [], m. split; [reflexivity|]. split; [exact HL|]. split; [reflexivity|]. intros x. rewrite store_out by (cbn; lia). reflexivity.
  - destruct (Z.ltb_spec got size) as [N|N].
    2:{ assert (size = got) as -> by lia. rewrite Z.sub_diag. exists (a :: c), m. split; [reflexivity|]. split; [exact HL|]. split; [reflexivity|]. intros x. rewrite store_out by (cbn; lia). reflexivity. }
    destruct (HL a (or_introl eq_refl)) as (l & ->). assert (HC : healthy c) by (intros b I; apply HL; right; exact I). cbn [stream] in *. rewrite app_length in L.
    destruct (Z.ltb_spec (manager_header + num * buffer_size) (p + Z.min (Z.of_nat (length l)) (size - got))) as [B|_]; [lia|].
    destruct (Z.ltb_spec (Z.min (Z.of_nat (length l)) (size - got)) (Z.of_nat (length l))) as [M|M].
    + assert (Z.min (Z.of_nat (length l)) (size - got) = size - got) as -> by lia. eexists. eexists. split; [f_equal; f_equal; f_equal; rewrite Z.mod_small by lia; lia|]. split; [intros b [<-|I]; [eexists; reflexivity|apply HC, I]|].
      split; [cbn [stream]; rewrite skipn_app; replace (Z.to_nat (size - got) - length l)%nat with 0%nat by lia; reflexivity|]. intros x. rewrite firstn_app. replace (Z.to_nat (size - got) - length l)%nat with 0%nat by lia. rewrite firstn_O, app_nil_r. reflexivity.
    + assert (Z.min (Z.of_nat (length l)) (size - got) = Z.of_nat (length l)) as -> by lia. rewrite Z.mod_small by lia.
      destruct (IH (p + Z.of_nat (length l)) size (got + Z.of_nat (length l)) (store p l m) HC) as (c1 & m1 & H & H1 & H2 & H3); [lia|lia|lia|lia|]. exists c1, m1. split; [exact H|]. split; [exact H1|].
      assert (E : Z.to_nat (size - (got + Z.of_nat (length l))) = (Z.to_nat (size - got) - length l)%nat) by lia. rewrite E in *. split.
      * rewrite H2, skipn_app. rewrite (skipn_all2 l) by lia. reflexivity.
      * intros x. rewrite H3, store_app, firstn_app. rewrite (firstn_all2 l) by lia. reflexivity.
Qed.
(** Too little has arrived. *)
Lemma loop_wait num : forall c p size got m, healthy c -> 0 <= got -> size < 2 ^ 63 -> p + (size - got) <= manager_header + num * buffer_size -> Z.of_nat (length (stream c)) < size - got ->
  exists c1 m1 g, read_loop num c p size got m = (c1, m1, g, Waits).
Proof.
  induction c as [|a c IH]; intros p size got m HL G S P L; cbn [read_loop]; (destruct (Z.ltb_spec got size) as [N|N]; [|cbn in L; lia]); [do 3 eexists; reflexivity|].
  destruct (HL a (or_introl eq_refl)) as (l & ->). assert (HC : healthy c) by (intros b I; apply HL; right; exact I). cbn [stream] in *. rewrite app_length in L.
  assert (Z.min (Z.of_nat (length l)) (size - got) = Z.of_nat (length l)) as -> by lia. destruct (Z.ltb_spec (manager_header + num * buffer_size) (p + Z.of_nat (length l))) as [B|_]; [lia|]. rewrite Z.ltb_irrefl, Z.mod_small by lia. apply IH; [exact HC|lia..].
Qed.
(** ... and then the connection ends. *)
Lemma loop_closed num r : forall c p size got m, healthy c -> 0 <= got -> size < 2 ^ 63 -> p + (size - got) <= manager_header + num * buffer_size -> Z.of_nat (length (stream c)) < size - got ->
  exists c1 m1 g, read_loop num (c ++ Closed :: r) p size got m = (c1, m1, g, Loops).
Proof.
  induction c as [|a c IH]; intros p size got m HL G S P L; cbn [read_loop app]; (destruct (Z.ltb_spec got size) as [N|N]; [|cbn in L; lia]); [do 3 eexists; reflexivity|].
  destruct (HL a (or_introl eq_refl)) as (l & ->). assert (HC : healthy c) by (intros b I; apply HL; right; exact I). cbn [stream] in *. rewrite app_length in L.
  assert (Z.min (Z.of_nat (length l)) (size - got) = Z.of_nat (length l)) as -> by lia. destruct (Z.ltb_spec (manager_header + num * buffer_size) (p + Z.of_nat (length l))) as [B|_]; [lia|]. rewrite Z.ltb_irrefl, Z.mod_small by lia. apply IH; [exact HC|lia..].
Qed.

(** Between calls *)
Definition between (s : tcp) : Prop := 5 <= t_num s /\ 0 <= t_id s < 5 /\ t_read s = 0 /\ t_state s = Empty.
Definition following (b : Z) : Z := if b =? 4 then 0 else b + 1.
Lemma next_between s : between s -> next_buffer s = Tcp (t_num s) (following (t_id s)) 0 Empty (t_mem s) (t_ready s).
Proof. intros (_ & I & R & E). unfold next_buffer, following. rewrite E, R, Z.mod_small by lia. unfold num_buffers. destruct (Z.leb_spec 5 (t_id s + 1)), (Z.eqb_spec (t_id s) 4); try lia; reflexivity. Qed.
Lemma following_in b : 0 <= b < 5 -> 0 <= following b < 5. Proof. unfold following. destruct (Z.eqb_spec b 4); lia. Qed.
Lemma handle_frame c s : between s -> healthy c -> (1000 <= length (stream c))%nat ->
  exists c1 s1, handle_receive c s = (c1, s1, Returned) /\ between s1 /\ healthy c1 /\ stream c1 = skipn 1000 (stream c) /\ t_id s1 = following (t_id s) /\ t_num s1 = t_num s /\ t_ready s1 = t_ready s /\
    forall x, t_mem s1 x = store (24 + following (t_id s) * 5000) (firstn 1000 (stream c)) (t_mem s) x.
Proof.
  intros B H L. pose proof B as (N & I & R & E). pose proof (following_in _ I) as I1. unfold handle_receive. rewrite (next_between s B). cbv zeta. cbn [t_num t_id t_read t_mem t_state t_ready]. unfold buffer_address, manager_header, buffer_size, num_buffers, frame_size.
  destruct (Z.leb_spec (t_num s) (following (t_id s))) as [X|_]; [lia|].
  destruct (loop_fill (t_num s) c (24 + following (t_id s) * (5 * 1000) + 0) 1000 0 (t_mem s) H) as (c1 & m1 & RL & H1 & H2 & H3); [lia|lia|unfold manager_header, buffer_size, num_buffers, frame_size; nia|lia|].
  unfold next_size. cbn [t_read]. unfold frame_size. rewrite Z.sub_0_r, (Z.mod_small 1000) by lia. rewrite RL. unfold process_message. cbn [t_read]. rewrite Z.mod_small by lia. unfold frame_size. rewrite Z.eqb_refl. cbn [t_num t_id t_read t_mem t_state t_ready].
  eexists. eexists. split; [reflexivity|]. rewrite Z.sub_0_r in H2, H3. change (Z.to_nat 1000) with 1000%nat in H2, H3. split; [repeat split; cbn; lia|]. split; [exact H1|]. split; [exact H2|]. do 3 (split; [reflexivity|]). intros x. cbn [t_mem]. rewrite H3. f_equal. lia.
Qed.
Lemma handle_waits c s : between s -> healthy c -> (length (stream c) < 1000)%nat -> snd (handle_receive c s) = Waits.
Proof.
  intros B H L. pose proof B as (N & I & R & E). pose proof (following_in _ I) as I1. unfold handle_receive. rewrite (next_between s B). cbv zeta. cbn [t_num t_id t_read t_mem t_state t_ready]. unfold buffer_address, manager_header, buffer_size, num_buffers, frame_size.
  destruct (Z.leb_spec (t_num s) (following (t_id s))) as [X|_]; [lia|].
  destruct (loop_wait (t_num s) c (24 + following (t_id s) * (5 * 1000) + 0) 1000 0 (t_mem s) H) as (c1 & m1 & g & RL); [lia|lia|unfold manager_header, buffer_size, num_buffers, frame_size; nia|lia|].
  unfold next_size. cbn [t_read]. unfold frame_size. rewrite Z.sub_0_r, (Z.mod_small 1000) by lia. rewrite RL. reflexivity.
Qed.
Lemma handle_closed c r s : between s -> healthy c -> (length (stream c) < 1000)%nat -> snd (handle_receive (c ++ Closed :: r) s) = Loops.
Proof.
  intros B H L. pose proof B as (N & I & R & E). pose proof (following_in _ I) as I1. unfold handle_receive. rewrite (next_between s B). cbv zeta. cbn [t_num t_id t_read t_mem t_state t_ready]. unfold buffer_address, manager_header, buffer_size, num_buffers, frame_size.
  destruct (Z.leb_spec (t_num s) (following (t_id s))) as [X|_]; [lia|].
  destruct (loop_closed (t_num s) r c (24 + following (t_id s) * (5 * 1000) + 0) 1000 0 (t_mem s) H) as (c1 & m1 & g & RL); [lia|lia|unfold manager_header, buffer_size, num_buffers, frame_size; nia|lia|].
  unfold next_size. cbn [t_read]. unfold frame_size. rewrite Z.sub_0_r, (Z.mod_small 1000) by lia. rewrite RL. reflexivity.
Qed.
Lemma handle_failed r s : between s -> snd (handle_receive (Failed :: r) s) = Raised.
Proof.
  intros B. pose proof B as (N & I & R & E). pose proof (following_in _ I) as I1. unfold handle_receive. rewrite (next_between s B). cbv zeta. cbn [t_num t_id t_read t_mem t_state t_ready]. unfold buffer_address, manager_header, buffer_size, num_buffers, frame_size.
  destruct (Z.leb_spec (t_num s) (following (t_id s))) as [X|_]; [lia|]. unfold next_size. cbn [t_read]. unfold frame_size. rewrite Z.sub_0_r, (Z.mod_small 1000) by lia. cbn [read_loop]. change (0 <? 1000) with true. cbn iota. change ((0 - 1) mod 2 ^ 64) with 18446744073709551615. destruct r as [|a r]; reflexivity.
Qed.

Lemma skipn_more {A} (l : list A) : forall a b, skipn a (skipn b l) = skipn (b + a) l.
Proof. induction l as [|x l IH]; intros a b; [rewrite !skipn_nil; reflexivity|]. destruct b as [|b]; [reflexivity|]. cbn. apply IH. Qed.
Lemma served_last cs s l k cs2 s2 : served cs s (l ++ [k]) cs2 s2 -> exists cs1 s1 c1, served cs s l cs1 s1 /\ handle_receive (cs1 k) s1 = (c1, s2, Returned) /\ cs2 = on cs1 k c1.
Proof.
  revert cs s. induction l as [|j l IH]; intros cs s H; cbn in H; inversion H as [|? ? ? c1 s1 ? ? ? N HR SV]; subst.
  - inversion SV; subst. exists cs, s, c1. split; [constructor|auto].
  - destruct (IH _ _ SV) as (cs1 & s3 & c3 & A & B & C). exists cs1, s3, c3. split; [|auto]. eapply sv_one; eassumption.
Qed.
Lemma on_same {A} (f : nat -> A) k x : on f k x k = x. Proof. unfold on. rewrite Nat.eqb_refl. reflexivity. Qed.
Lemma on_other {A} (f : nat -> A) k x j : j <> k -> on f k x j = f j. Proof. intros N. unfold on. destruct (Nat.eqb_spec j k); congruence. Qed.
Lemma times_last k l j : times k (l ++ [j]) = (times k l + if Nat.eq_dec j k then 1 else 0)%nat. Proof. unfold times. rewrite count_occ_app. cbn. destruct (Nat.eq_dec j k); reflexivity. Qed.
Lemma following_mod b : 0 <= b -> following (b mod 5) = (b + 1) mod 5.
Proof. intros B. unfold following. pose proof (Z.mod_pos_bound b 5 ltac:(lia)). destruct (Z.eqb_spec (b mod 5) 4) as [E|E]; [rewrite <- Z.add_mod_idemp_l, E by lia; reflexivity|]. rewrite <- Z.add_mod_idemp_l by lia. symmetry. apply Z.mod_small. lia. Qed.

(** The state after any number of frames *)
Lemma served_state num mem cs : 5 <= num -> (forall k, healthy (cs k)) -> forall l cs2 s2, served cs (tcp_init num mem) l cs2 s2 ->
  between s2 /\ t_num s2 = num /\ t_ready s2 = [] /\ t_id s2 = Z.of_nat (length l) mod 5 /\
  (forall k, healthy (cs2 k) /\ (1000 * times k l <= length (stream (cs k)))%nat /\ stream (cs2 k) = skipn (1000 * times k l) (stream (cs k))) /\
  (forall i k, nth_error l i = Some k -> (length l - i <= 5)%nat -> has_frame s2 (Z.of_nat (i + 1) mod 5) (frame_of (stream (cs k)) (times k (firstn i l)))) /\
  (forall a, t_mem s2 a <> mem a -> exists b x, 0 <= b < 5 /\ 0 <= x < 1000 /\ a = 24 + b * 5000 + x).
Proof.
  intros NU HE l. induction l as [|k l IH] using rev_ind; intros cs2 s2 SV.
  - inversion SV; subst. split; [repeat split; cbn; try lia; auto|]. do 2 (split; [reflexivity|]). split; [reflexivity|]. split; [intros k; split; [apply HE|split; [cbn; lia|reflexivity]]|]. split; [intros [|i] k E; discriminate|]. intros a N. destruct N. reflexivity.
  - destruct (served_last _ _ _ _ _ _ SV) as (cs1 & s1 & c1 & S1 & H & ->). destruct (IH _ _ S1) as (B & N & R & ID & ST & FR & ME). destruct (ST k) as (HK & LK & SK).
    assert (L : (1000 <= length (stream (cs1 k)))%nat). { destruct (Nat.lt_ge_cases (length (stream (cs1 k))) 1000) as [X|X]; [|exact X]. pose proof (handle_waits _ _ B HK X) as W. rewrite H in W. discriminate. }
    destruct (handle_frame _ _ B HK L) as (c2 & s3 & H' & B2 & HC & SC & IDS & NS & RS & M). rewrite H in H'. injection H' as <- <-. rewrite ID in IDS, M. rewrite following_mod in IDS, M by lia.
    assert (LN : length (firstn 1000 (stream (cs1 k))) = 1000%nat) by (rewrite firstn_length; lia).
    split; [exact B2|]. split; [congruence|]. split; [congruence|]. split; [rewrite IDS, app_length; cbn [length]; f_equal; lia|]. split; [|split].
    + intros j. rewrite times_last. destruct (Nat.eq_dec k j) as [<-|D].
      * rewrite on_same. rewrite SK, skipn_length in L. split; [exact HC|]. split; [lia|]. rewrite SC, SK. rewrite skipn_more. f_equal. lia.
      * rewrite on_other by congruence. rewrite Nat.add_0_r. apply ST.
    + intros i j E LI. rewrite app_length in LI. cbn [length] in LI. destruct (Nat.eq_dec i (length l)) as [->|NE].
      * rewrite nth_error_app2, Nat.sub_diag in E by lia. injection E as <-. rewrite firstn_app, Nat.sub_diag, firstn_all, firstn_O, app_nil_r. intros x X. rewrite M. replace (Z.of_nat (length l + 1)) with (Z.of_nat (length l) + 1) by lia. rewrite store_in by lia. unfold frame_of. rewrite <- SK. f_equal. lia.
      * assert (I : (i < length l)%nat). { assert (X : nth_error (l ++ [k]) i <> None) by congruence. apply nth_error_Some in X. rewrite app_length in X. cbn [length] in X. lia. }
        rewrite nth_error_app1 in E by exact I. rewrite firstn_app. replace (i - length l)%nat with 0%nat by lia. rewrite firstn_O, app_nil_r. intros x X. rewrite M. rewrite store_out; [apply (FR i j E ltac:(lia) x X)|]. rewrite LN.
        assert (NB : Z.of_nat (i + 1) mod 5 <> (Z.of_nat (length l) + 1) mod 5). { intros Q. pose proof (Z.div_mod (Z.of_nat (i + 1)) 5 ltac:(lia)). pose proof (Z.div_mod (Z.of_nat (length l) + 1) 5 ltac:(lia)). lia. }
        intros Q. pose proof (Z.mod_pos_bound (Z.of_nat (i + 1)) 5 ltac:(lia)). pose proof (Z.mod_pos_bound (Z.of_nat (length l) + 1) 5 ltac:(lia)). nia.
    + intros a NA. rewrite M in NA. pose proof (Z.mod_pos_bound (Z.of_nat (length l) + 1) 5 ltac:(lia)) as PB. set (b := (Z.of_nat (length l) + 1) mod 5) in *.
      destruct (Z_lt_dec a (24 + b * 5000)) as [Q|Q]; [rewrite store_out in NA by lia; exact (ME a NA)|]. destruct (Z_lt_dec a (24 + b * 5000 + 1000)) as [Q2|Q2]; [|rewrite store_out in NA by lia; exact (ME a NA)]. exists b, (a - (24 + b * 5000)). lia.
Qed.
