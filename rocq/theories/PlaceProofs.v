From Verif Require Import Base PlaceModel PlaceSpec.
Local Open Scope N_scope.

Lemma dma a b r : r < b -> (a * b + r) / b = a.
Proof. intros H. symmetry. apply (N.div_unique _ _ _ r); [assumption|lia]. Qed.

Lemma mma a b r : r < b -> (a * b + r) mod b = r.
Proof. intros H. symmetry. apply (N.mod_unique _ _ a); [assumption|lia]. Qed.

Lemma dm a b : 0 < b -> exists q r, a = q * b + r /\ r < b.
Proof.
  intros H. exists (a / b), (a mod b). split.
  - rewrite (N.mul_comm (a / b)). apply N.div_mod. lia.
  - apply N.mod_lt. lia.
Qed.

Lemma rank_test_true g off :
  1 <= g_procs g -> 1 <= g_fpb g -> g_rank g < g_procs g ->
  rank_test g off = Ret ((off / g_fpb g) mod g_procs g =? g_rank g).
Proof.
  intros HP HF Hr. unfold rank_test.
  destruct (N.ltb_spec 1 (g_procs g)) as [H|H].
  - destruct (N.eqb_spec (g_fpb g) 0); [lia|reflexivity].
  - assert (g_procs g = 1) as -> by lia.
    rewrite N.mod_1_r. f_equal. symmetry. apply N.eqb_eq. lia.
Qed.

(** The three values of a frame off = (q*P + p)*F + f. *)
Lemma file_index_val P F B r q p f :
  1 <= P -> 1 <= F -> 1 <= B -> p < P -> f < F ->
  file_index (Geom P r F B) ((q * P + p) * F + f) = Ret (q / B * P + r).
Proof.
  intros HP HF HB Hp Hf. unfold file_index; cbn [g_fpb g_procs g_bpf g_rank].
  destruct (N.eqb_spec F 0); [lia|]. destruct (N.eqb_spec P 0); [lia|]. destruct (N.eqb_spec B 0); [lia|].
  cbn [orb]. rewrite dma by assumption. rewrite dma by assumption. reflexivity.
Qed.

Lemma offset_val P F B r q p f :
  1 <= P -> 1 <= F -> p < P -> f < F ->
  offset_in_file (Geom P r F B) ((q * P + p) * F + f)
  = Ret ((if B =? 0 then q else q mod B) * F + f).
Proof.
  intros HP HF Hp Hf. unfold offset_in_file; cbn [g_fpb g_procs g_bpf g_rank].
  destruct (N.eqb_spec (F * P) 0); [nia|].
  assert (((q * P + p) * F + f) / (F * P) = q) as ->.
  { rewrite <- N.div_div by lia. rewrite dma by assumption. apply dma; assumption. }
  rewrite mma by assumption.
  destruct (N.eqb_spec B 0); [reflexivity|].
  rewrite (N.mul_comm B F), (N.mul_comm q F).
  rewrite N.mul_mod_distr_l by lia. rewrite (N.mul_comm F). reflexivity.
Qed.

Lemma rank_val P F B r q p f :
  1 <= P -> 1 <= F -> r < P -> p < P -> f < F ->
  rank_test (Geom P r F B) ((q * P + p) * F + f) = Ret (p =? r).
Proof.
  intros HP HF Hr Hp Hf. rewrite rank_test_true by assumption. cbn [g_fpb g_procs g_rank].
  rewrite dma by assumption. rewrite mma by assumption. reflexivity.
Qed.

Lemma decompose P F off :
  1 <= P -> 1 <= F -> exists q p f, off = (q * P + p) * F + f /\ p < P /\ f < F.
Proof.
  intros HP HF. destruct (dm off F) as (k & f & -> & Hf); [lia|].
  destruct (dm k P) as (q & p & -> & Hp); [lia|]. eauto 6.
Qed.

(** ** Exactly one process *)
Lemma exactly_one_writer P F B off :
  1 <= P -> 1 <= F ->
  exists r, r < P /\ rank_test (Geom P r F B) off = Ret true /\
    (forall r', r' < P -> r' <> r -> rank_test (Geom P r' F B) off = Ret false) /\
    r = block_of F off mod P.
Proof.
  intros HP HF. exists (block_of F off mod P). split; [apply N.mod_lt; lia|].
  split; [|split; [|reflexivity]].
  - rewrite rank_test_true; cbn; [|lia|lia|apply N.mod_lt; lia].
    f_equal. apply N.eqb_eq. reflexivity.
  - intros r' Hr' Hne. rewrite rank_test_true; cbn; [|lia..].
    f_equal. apply N.eqb_neq. unfold block_of in Hne. congruence.
Qed.

(** ** Bijection *)
Lemma placement_iff P F B r off i s :
  1 <= P -> 1 <= F -> 1 <= B -> r < P ->
  (rank_test (Geom P r F B) off = Ret true /\
   file_index (Geom P r F B) off = Ret i /\
   offset_in_file (Geom P r F B) off = Ret s)
  <-> (i mod P = r /\ s < B * F /\ off = frame_at P F B i s).
Proof.
  intros HP HF HB Hr. split.
  - intros (Hrt & Hfi & Hof).
    destruct (decompose P F off HP HF) as (q & p & f & -> & Hp & Hf).
    rewrite rank_val in Hrt by assumption. rewrite file_index_val in Hfi by assumption.
    rewrite offset_val in Hof by assumption.
    injection Hrt as Hrt. apply N.eqb_eq in Hrt. subst p.
    injection Hfi as <-. injection Hof as <-.
    destruct (N.eqb_spec B 0) as [|HB0]; [lia|].
    assert (q mod B < B) by (apply N.mod_lt; lia).
    split; [|split].
    + apply mma; assumption.
    + nia.
    + unfold frame_at. rewrite dma, mma by assumption. rewrite dma, mma by assumption.
      rewrite (N.mul_comm (q / B) B). rewrite <- N.div_mod by lia. reflexivity.
  - intros (Hi & Hs & ->). unfold frame_at.
    assert (i mod P < P) by (apply N.mod_lt; lia).
    assert (s mod F < F) by (apply N.mod_lt; lia).
    assert (s / F < B). { apply N.div_lt_upper_bound; lia. }
    rewrite rank_val, file_index_val, offset_val by assumption.
    split; [|split].
    + rewrite Hi, N.eqb_refl. reflexivity.
    + rewrite dma by assumption. rewrite <- Hi. rewrite (N.mul_comm (i / P)).
      rewrite <- N.div_mod by lia. reflexivity.
    + destruct (N.eqb_spec B 0); [lia|]. rewrite mma by assumption.
      rewrite (N.mul_comm (s / F)). rewrite <- N.div_mod by lia. reflexivity.
Qed.

Lemma placement_total P F B r off :
  1 <= P -> 1 <= F -> 1 <= B ->
  exists i s, file_index (Geom P r F B) off = Ret i /\ offset_in_file (Geom P r F B) off = Ret s.
Proof.
  intros HP HF HB.
  destruct (decompose P F off HP HF) as (q & p & f & -> & Hp & Hf).
  rewrite file_index_val, offset_val by assumption. eauto.
Qed.

Lemma placement_single_iff P F r off s :
  1 <= P -> 1 <= F -> r < P ->
  (rank_test (Geom P r F 0) off = Ret true /\ offset_in_file (Geom P r F 0) off = Ret s)
  <-> off = frame_at_single P F r s.
Proof.
  intros HP HF Hr. split.
  - intros (Hrt & Hof).
    destruct (decompose P F off HP HF) as (q & p & f & -> & Hp & Hf).
    rewrite rank_val in Hrt by assumption. rewrite offset_val in Hof by assumption.
    injection Hrt as Hrt. apply N.eqb_eq in Hrt. subst p. injection Hof as <-. cbn [N.eqb].
    unfold frame_at_single. rewrite dma, mma by assumption. reflexivity.
  - intros ->. unfold frame_at_single.
    assert (s mod F < F) by (apply N.mod_lt; lia).
    rewrite rank_val, offset_val by assumption. rewrite N.eqb_refl. split; [reflexivity|].
    cbn [N.eqb]. rewrite (N.mul_comm (s / F)). rewrite <- N.div_mod by lia. reflexivity.
Qed.

(** ** Order *)
Lemma place_order P F B r a b ia ib sa sb :
  1 <= P -> 1 <= F -> 1 <= B -> r < P ->
  let g := Geom P r F B in
  rank_test g a = Ret true -> rank_test g b = Ret true ->
  file_index g a = Ret ia -> file_index g b = Ret ib ->
  offset_in_file g a = Ret sa -> offset_in_file g b = Ret sb ->
  a < b -> ia < ib \/ (ia = ib /\ sa < sb).
Proof.
  intros HP HF HB Hr g Hra Hrb Hia Hib Hsa Hsb Hlt. subst g.
  destruct (decompose P F a HP HF) as (qa & pa & fa & -> & Hpa & Hfa).
  destruct (decompose P F b HP HF) as (qb & pb & fb & -> & Hpb & Hfb).
  rewrite rank_val in Hra, Hrb by assumption.
  rewrite file_index_val in Hia, Hib by assumption.
  rewrite offset_val in Hsa, Hsb by assumption.
  injection Hra as Hra. injection Hrb as Hrb. apply N.eqb_eq in Hra, Hrb. subst pa pb.
  injection Hia as <-. injection Hib as <-. injection Hsa as <-. injection Hsb as <-.
  destruct (N.eqb_spec B 0) as [|HB0]; [lia|].
  destruct (dm qa B) as (ua & va & -> & Hva); [lia|].
  destruct (dm qb B) as (ub & vb & -> & Hvb); [lia|].
  rewrite !dma, !mma by assumption.
  assert ((ua * B + va) * P + r < (ub * B + vb) * P + r \/
          ((ua * B + va) * P + r = (ub * B + vb) * P + r /\ fa < fb)) as [H|[H Hf]] by nia.
  - assert (ua * B + va < ub * B + vb) by nia.
    assert (ua < ub \/ (ua = ub /\ va < vb)) as [?|[-> ?]] by nia.
    + left. nia.
    + right. split; [reflexivity|]. nia.
  - assert (ua * B + va = ub * B + vb) by nia.
    assert (ua = ub) as -> by nia. assert (va = vb) as -> by nia. right. split; [reflexivity|]. lia.
Qed.

(** ** Counting *)
Lemma calc_leftover_exact P F T :
  1 <= P -> 1 <= F -> T / F / P * F * P <= T.
Proof.
  intros HP HF. destruct (decompose P F T HP HF) as (q & p & f & -> & Hp & Hf).
  rewrite dma by assumption. rewrite dma by assumption. nia.
Qed.

Lemma calc_val P F B r q p f :
  1 <= P -> 1 <= F -> r < P -> p < P -> f < F ->
  calc_num_frames (Geom P r F B) ((q * P + p) * F + f)
  = Ret (q * F + (if r <? p then F else if r =? p then f else 0)).
Proof.
  intros HP HF Hr Hp Hf. unfold calc_num_frames; cbn [g_fpb g_procs g_bpf g_rank].
  destruct (N.eqb_spec F 0); [lia|]. destruct (N.eqb_spec P 0); [lia|]. cbn [orb].
  rewrite dma by assumption. rewrite dma by assumption.
  assert ((q * P + p) * F + f - q * F * P = p * F + f) as -> by nia.
  f_equal.
  destruct (N.ltb_spec r p) as [H|H].
  - assert (r * F + F <= p * F + f) by nia.
    destruct (N.ltb_spec (r * F) (p * F + f)); [|lia].
    rewrite N.min_r by lia. lia.
  - destruct (N.eqb_spec r p) as [->|Hne].
    + destruct (N.ltb_spec (p * F) (p * F + f)).
      * rewrite N.min_l by lia. lia.
      * lia.
    + assert (p * F + f < r * F) by nia.
      destruct (N.ltb_spec (r * F) (p * F + f)); lia.
Qed.

Lemma calc_zero P F B r :
  1 <= P -> 1 <= F -> r < P -> calc_num_frames (Geom P r F B) 0 = Ret 0.
Proof.
  intros HP HF Hr. pose proof (calc_val P F B r 0 0 0) as H. cbn [N.mul N.add] in H.
  rewrite H by lia. destruct (N.ltb_spec r 0); [lia|]. destruct (r =? 0); reflexivity.
Qed.

Lemma calc_succ P F B r T n :
  1 <= P -> 1 <= F -> r < P ->
  calc_num_frames (Geom P r F B) T = Ret n ->
  calc_num_frames (Geom P r F B) (T + 1)
  = Ret (n + if (T / F) mod P =? r then 1 else 0).
Proof.
  intros HP HF Hr Hn.
  destruct (decompose P F T HP HF) as (q & p & f & -> & Hp & Hf).
  rewrite calc_val in Hn by assumption. injection Hn as <-.
  rewrite dma by assumption. rewrite mma by assumption.
  destruct (N.ltb_spec (f + 1) F) as [H1|H1].
  - replace ((q * P + p) * F + f + 1) with ((q * P + p) * F + (f + 1)) by lia.
    rewrite calc_val by assumption. f_equal.
    destruct (N.ltb_spec r p); destruct (N.eqb_spec r p); destruct (N.eqb_spec p r); subst; lia.
  - assert (f + 1 = F) by lia.
    destruct (N.ltb_spec (p + 1) P) as [H2|H2].
    + replace ((q * P + p) * F + f + 1) with ((q * P + (p + 1)) * F + 0) by nia.
      rewrite calc_val by lia. f_equal.
      destruct (N.ltb_spec r p); destruct (N.eqb_spec r p); destruct (N.eqb_spec p r);
        destruct (N.ltb_spec r (p + 1)); destruct (N.eqb_spec r (p + 1)); subst; lia.
    + assert (p + 1 = P) by lia.
      replace ((q * P + p) * F + f + 1) with (((q + 1) * P + 0) * F + 0) by nia.
      rewrite calc_val by lia. f_equal.
      destruct (N.ltb_spec r p); destruct (N.eqb_spec r p); destruct (N.eqb_spec p r);
        destruct (N.ltb_spec r 0); destruct (N.eqb_spec r 0); subst; lia.
Qed.

Lemma count_below_succ T test :
  count_below (S T) test = (count_below T test + if test (N.of_nat T) then 1 else 0)%nat.
Proof.
  unfold count_below. rewrite seq_S, map_app, filter_app, app_length. cbn.
  destruct (test (N.of_nat T)); cbn; lia.
Qed.

Lemma calc_counts P F B r T :
  1 <= P -> 1 <= F -> r < P ->
  calc_num_frames (Geom P r F B) (N.of_nat T)
  = Ret (N.of_nat (count_below T (fun off => match rank_test (Geom P r F B) off with Ret b => b | _ => false end))).
Proof.
  intros HP HF Hr. induction T as [|T IH].
  - apply calc_zero; assumption.
  - rewrite count_below_succ. rewrite rank_test_true by assumption. cbn [g_procs g_rank g_fpb].
    replace (N.of_nat (S T)) with (N.of_nat T + 1) by lia.
    rewrite (calc_succ _ _ _ _ _ _ HP HF Hr IH). f_equal.
    destruct ((N.of_nat T / F) mod P =? r); lia.
Qed.

Lemma sum_below_add n f g : sum_below n (fun k => f k + g k)%nat = (sum_below n f + sum_below n g)%nat.
Proof. induction n as [|n IH]; cbn; [reflexivity|]. rewrite IH. lia. Qed.

Lemma sum_below_ext n f g : (forall k, (k < n)%nat -> f k = g k) -> sum_below n f = sum_below n g.
Proof. induction n as [|n IH]; cbn; intros H; [reflexivity|]. rewrite IH, H by (intros; try apply H; lia). reflexivity. Qed.

Lemma sum_below_zero n : sum_below n (fun _ => 0%nat) = 0%nat.
Proof. induction n as [|n IH]; cbn; lia. Qed.

Lemma sum_below_indicator n m : (m < n)%nat ->
  sum_below n (fun k => if (k =? m)%nat then 1 else 0)%nat = 1%nat.
Proof.
  induction n as [|n IH]; cbn; intros H; [lia|].
  destruct (Nat.eqb_spec n m) as [->|Hne].
  - rewrite (sum_below_ext _ _ (fun _ => 0%nat)).
    + rewrite sum_below_zero. lia.
    + intros k Hk. destruct (Nat.eqb_spec k m); lia.
  - rewrite IH by lia. lia.
Qed.

Lemma calc_sum (P : nat) F B (T : nat) :
  (1 <= P)%nat -> 1 <= F ->
  sum_below P (fun r => match calc_num_frames (Geom (N.of_nat P) (N.of_nat r) F B) (N.of_nat T) with
                        | Ret n => N.to_nat n | _ => 0%nat end) = T.
Proof.
  intros HP HF. induction T as [|T IH].
  - rewrite (sum_below_ext _ _ (fun _ => 0%nat)); [apply sum_below_zero|].
    intros k Hk. rewrite calc_zero by lia. reflexivity.
  - set (m := N.to_nat ((N.of_nat T / F) mod N.of_nat P)).
    assert (Hm : (m < P)%nat).
    { unfold m. pose proof (N.mod_lt (N.of_nat T / F) (N.of_nat P)). lia. }
    rewrite (sum_below_ext _ _ (fun r =>
      (match calc_num_frames (Geom (N.of_nat P) (N.of_nat r) F B) (N.of_nat T) with
       | Ret n => N.to_nat n | _ => 0%nat end) + (if (r =? m)%nat then 1 else 0))%nat).
    + rewrite sum_below_add, IH, sum_below_indicator by assumption. lia.
    + intros k Hk.
      replace (N.of_nat (S T)) with (N.of_nat T + 1) by lia.
      erewrite calc_succ; [|lia|exact HF|lia|apply calc_counts; lia].
      rewrite calc_counts by lia.
      destruct (N.eqb_spec ((N.of_nat T / F) mod N.of_nat P) (N.of_nat k)); destruct (Nat.eqb_spec k m); subst m; lia.
Qed.

(** ** Offset adjustment *)
Lemma i32_small z : (- 2^31 <= z < 2^31)%Z -> i32 z = z.
Proof. intros H. unfold i32. rewrite Z.mod_small by lia. lia. Qed.

Lemma i32_le z : (0 <= z)%Z -> (i32 z <= z)%Z.
Proof.
  intros H. unfold i32.
  assert ((z + 2 ^ 31) mod 2 ^ 32 <= z + 2 ^ 31)%Z; [|lia].
  apply Z.mod_le; lia.
Qed.

Lemma i32_range z : (- 2^31 <= i32 z < 2^31)%Z.
Proof. unfold i32. pose proof (Z.mod_pos_bound (z + 2^31) (2^32)). lia. Qed.

Lemma adjust_exact frame_no adj :
  frame_no < 2^31 -> (- 2^63 <= adj < 2^63 - 2^31)%Z ->
  adjust_frame_offset frame_no adj =
  if (Z.of_N frame_no + adj <? 0)%Z then Throw NegativeOffset
  else Ret (Z.to_N (Z.of_N frame_no + adj)).
Proof.
  intros Hf Ha. unfold adjust_frame_offset. rewrite i32_small by lia.
  unfold in_i64. destruct (Z.leb_spec (-2^63) (Z.of_N frame_no + adj)); [|lia].
  destruct (Z.ltb_spec (Z.of_N frame_no + adj) (2^63)); [|lia]. cbn [andb negb].
  destruct (Z.ltb_spec (Z.of_N frame_no + adj) 0); [reflexivity|].
  unfold u64. rewrite Z.mod_small by lia. reflexivity.
Qed.

Lemma adjust_sound frame_no adj off :
  adjust_frame_offset frame_no adj = Ret off -> (Z.of_N frame_no + adj < 2^64)%Z ->
  Z.of_N off = (Z.of_N frame_no + adj)%Z.
Proof.
  intros H Hb. unfold adjust_frame_offset in H.
  destruct (negb _); [discriminate|].
  destruct (Z.ltb_spec (i32 (Z.of_N frame_no) + adj) 0); [discriminate|].
  injection H as <-. unfold u64.
  pose proof (i32_le (Z.of_N frame_no) ltac:(lia)).
  rewrite Z.mod_small by lia. rewrite Z2N.id; lia.
Qed.
