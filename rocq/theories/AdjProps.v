(** C38: sums; C39: adjustments. *)
From Coq Require Import String.
From Verif Require Import Base StrOrder FrameModel JsonModel JsonSpec JsonProofs AdjModel GapSpec GapProofs AdjSpec.
Local Open Scope string_scope.
Local Open Scope list_scope.
Local Open Scope Z_scope.

Lemma total_map_add {A} (f g : A -> Z) l : total (map (fun x => f x + g x) l) = total (map f l) + total (map g l).
Proof. unfold total. induction l; cbn in *; lia. Qed.
Lemma total_map_mul {A} c (f : A -> Z) l : total (map (fun x => c * f x) l) = c * total (map f l).
Proof. unfold total. induction l; cbn in *; lia. Qed.
Lemma total_ext {A} (f g : A -> Z) l : (forall x, In x l -> f x = g x) -> total (map f l) = total (map g l).
Proof. intros H. f_equal. apply map_ext_in, H. Qed.
Lemma le_total l : little_endian l = total (map (fun k => nth k l 0 * 256 ^ Z.of_nat k) (seq 0 (List.length l))).
Proof.
  induction l as [|b r IH]; [reflexivity|]. cbn [List.length seq map]. rewrite <- seq_shift, map_map. cbn [little_endian]. rewrite IH.
  change (total (?h :: ?t)) with (h + total t). rewrite <- total_map_mul. f_equal; [cbn; lia|]. apply total_ext. intros k _. cbn [nth]. rewrite Nat2Z.inj_succ, Z.pow_succ_r by lia. ring.
Qed.
Lemma sum_pixels_total es n l acc : (n * es <= List.length l)%nat -> 0 <= acc < 2 ^ 64 ->
  sum_pixels es n l acc = (acc + pixel_sum es n l) mod 2 ^ 64.
Proof.
  revert l acc. induction n as [|n IH]; intros l acc L A; [cbn; rewrite Z.add_0_r, Z.mod_small by lia; reflexivity|].
  cbn [sum_pixels]. rewrite IH; [|rewrite skipn_length; lia|apply Z.mod_pos_bound; lia]. rewrite Zplus_mod_idemp_l. f_equal. unfold pixel_sum. cbn [seq map]. rewrite <- seq_shift, map_map. change (total (?h :: ?t)) with (h + total t). rewrite <- Z.add_assoc. f_equal. f_equal.
  - rewrite le_total. unfold pixel_value. rewrite firstn_length, Nat.min_l by lia. apply total_ext. intros k K. apply in_seq in K. rewrite nth_first by lia. reflexivity.
  - apply total_ext. intros i I. apply in_seq in I. unfold pixel_value. apply total_ext. intros k K. apply in_seq in K. rewrite nth_skip. f_equal. f_equal. lia.
Qed.

(** The parameter "sum" is the sum of the pixels modulo 2^64; nothing else changes and the frame is passed on. *)
Theorem c38_sum_partial f es : bytes_of (md_type (fr_meta f)) es -> md_type (fr_meta f) <> raw_float -> md_compr (fr_meta f) <> unknown_compression ->
  0 <= fr_image_offset f -> 0 <= fr_image_size f -> fr_image_offset f + fr_image_size f <= Z.of_nat (List.length (fr_mem f)) -> fr_image_size f < 2 ^ 31 ->
  exists m, sum_process f = Ret [with_meta m f] /\ same_but_params m (fr_meta f) /\
    sm_get (md_params m) "sum" = Some (AU64 (pixel_sum (Z.to_nat es) (Z.to_nat (fr_image_size f / es)) (image f) mod 2 ^ 64)) /\ (forall q, q <> "sum" -> sm_get (md_params m) q = sm_get (md_params (fr_meta f)) q).
Proof.
  intros BY NF CO IO IS0 FIT IS. assert (ES : 0 < es <= 8) by (inversion BY; lia). set (n := fr_image_size f / es). assert (N0 : 0 <= n) by (apply Z.div_pos; lia). assert (NE : n * es <= fr_image_size f) by (rewrite Z.mul_comm; apply Z.mul_div_le; lia). pose proof (l_pos n es N0 ltac:(lia)) as NE0.
  assert (CS : calculate_sum es f = Ret (pixel_sum (Z.to_nat es) (Z.to_nat n) (image f) mod 2 ^ 64)).
  { unfold calculate_sum. rewrite (Z.mod_small (fr_image_size f)) by lia. fold n. unfold read_image. rewrite Z.add_0_r. destruct (Z.leb_spec 0 (n * es)); [|lia]. destruct (Z.leb_spec 0 (fr_image_offset f)); [|lia]. destruct (Z.leb_spec (fr_image_offset f + n * es) (Z.of_nat (List.length (fr_mem f)))); [|lia]. cbn [andb].
    f_equal. fold (image f). assert (NN : (Z.to_nat n * Z.to_nat es = Z.to_nat (n * es))%nat) by (symmetry; apply Z2Nat.inj_mul; lia).
    assert (IL : (Z.to_nat (n * es) <= List.length (image f))%nat) by (unfold image; rewrite skipn_length; lia).
    rewrite sum_pixels_total; [|rewrite firstn_length; lia|lia]. rewrite Z.add_0_l. f_equal. unfold pixel_sum. apply total_ext. intros i I. apply in_seq in I. unfold pixel_value. apply total_ext. intros k K. apply in_seq in K. rewrite nth_first; [reflexivity|]. rewrite <- NN. assert (i * Z.to_nat es + Z.to_nat es <= Z.to_nat n * Z.to_nat es)%nat by nia. lia. }
  exists (set_parameter "sum" (AU64 (pixel_sum (Z.to_nat es) (Z.to_nat n) (image f) mod 2 ^ 64)) (fr_meta f)). split; [|split; [repeat split|split]].
  - unfold sum_process. assert (P : forall m, md_type m = md_type (fr_meta f) -> md_compr m = md_compr (fr_meta f) -> push (with_meta m f) = Ret [with_meta m f]).
    { intros m T C. unfold push, FrameModel.is_valid, with_meta. cbn [fr_meta]. rewrite T, C. apply Z.eqb_neq in CO. rewrite CO. inversion BY; reflexivity. }
    inversion BY as [E|E|E|E|E]; rewrite <- E in *; cbn [Z.eqb raw_8bit raw_16bit raw_32bit raw_64bit Pos.eqb]; try (destruct NF; reflexivity); (match goal with Q : _ = es |- _ => rewrite <- Q in CS end; rewrite CS; cbn [obind]; apply P; [symmetry; exact E|reflexivity]).
  - cbn. rewrite sm_get_put. reflexivity.
  - intros q Q. cbn. rewrite sm_get_put. destruct (String.eqb_spec q "sum"); [contradiction|reflexivity].
Qed.
(** Frames of other types pass unchanged, except that frames of unknown type are refused by push. *)
Theorem c38_other f : (forall es, bytes_of (md_type (fr_meta f)) es -> md_type (fr_meta f) = raw_float) ->
  sum_process f = if FrameModel.is_valid f then Ret [f] else Throw RuntimeError.
Proof.
  intros H. unfold sum_process. repeat match goal with |- context [Z.eqb (md_type (fr_meta f)) ?t] => destruct (Z.eqb_spec (md_type (fr_meta f)) t) as [E|]; [exfalso; rewrite E in H; first [specialize (H _ by8)|specialize (H _ by16)|specialize (H _ by32)|specialize (H _ by64)]; discriminate H|] end. reflexivity.
Qed.
Definition a_frame t mem := Frame (Meta 7 "data" t "acq" [2; 2] no_compression [("id", AU64 3)] 0) mem (Z.of_nat (List.length mem)) 0 (Z.of_nat (List.length mem)) 1.
Example c38_case : exists m, sum_process (a_frame raw_16bit [1; 0; 2; 1; 255; 255; 0; 0]) = Ret [with_meta m (a_frame raw_16bit [1; 0; 2; 1; 255; 255; 0; 0])] /\ md_params m = [("id", AU64 3); ("sum", AU64 65794)].
Proof. eexists. split; [vm_compute; reflexivity|reflexivity]. Qed.
Example c38_case_wraps : exists m, sum_process (a_frame raw_64bit [255; 255; 255; 255; 255; 255; 255; 255; 2; 0; 0; 0; 0; 0; 0; 0]) = Ret [m] /\ md_params (fr_meta m) = [("id", AU64 3); ("sum", AU64 1)].
Proof. eexists. split; [vm_compute; reflexivity|reflexivity]. Qed.
(** The image of a frame of 2 GB has a negative size and is read beyond its end. *)
Theorem c38_large_refuted m src : md_type m = raw_8bit -> sum_process (new_frame m src (2 ^ 31) 0) = Undef.
Proof.
  intros T. unfold sum_process. change (fr_meta (new_frame m src (2 ^ 31) 0)) with m. rewrite T. change (raw_8bit =? raw_8bit) with true. cbn match. unfold calculate_sum. cbn [new_frame fr_image_size]. replace (i32 (2 ^ 31 - 0)) with (- 2 ^ 31) by (vm_compute; reflexivity).
  replace ((- 2 ^ 31) mod 2 ^ 64 / 1) with (2 ^ 64 - 2 ^ 31) by (vm_compute; reflexivity). unfold read_image. cbn [new_frame fr_image_offset fr_mem]. destruct (Z.leb_spec (0 + 0 + (2 ^ 64 - 2 ^ 31) * 1) (Z.of_nat (List.length (firstn (Z.to_nat (2 ^ 31)) src)))) as [L|L]; [|rewrite andb_false_r; reflexivity].
  exfalso. pose proof (firstn_le_length (Z.to_nat (2 ^ 31)) src) as B. lia.
Qed.

(** The offset is added once. *)
Theorem c39_offset_partial adj f : - 2 ^ 63 <= md_offset (fr_meta f) + adj < 2 ^ 63 -> FrameModel.is_valid f = true ->
  offset_process adj f = Ret [with_meta (set_offset (md_offset (fr_meta f) + adj) (fr_meta f)) f].
Proof. intros H V. unfold offset_process, in_i64. destruct (Z.leb_spec (- 2 ^ 63) (md_offset (fr_meta f) + adj)); [|lia]. destruct (Z.ltb_spec (md_offset (fr_meta f) + adj) (2 ^ 63)); [|lia]. cbn [andb]. unfold push. change (FrameModel.is_valid (with_meta _ f)) with (FrameModel.is_valid f). rewrite V. reflexivity. Qed.

Lemma input_cases a p : no_input a p \/ exists i, input_is a p i.
Proof. unfold no_input, input_is. destruct (sm_get (ad_inputs a) p) as [i|]; [|auto]. destruct i; [auto|]. right. eexists. split; [reflexivity|discriminate]. Qed.
Lemma adjust_none a number p v m : no_input a p -> adjust_one a number (p, v) m = if in_i64 (number + v) then Ret (set_parameter p (AU64 ((number + v) mod 2 ^ 64)) m, []) else Undef.
Proof. intros [H|H]; cbn [adjust_one]; rewrite H; reflexivity. Qed.
Lemma adjust_some a number p v m i : input_is a p i -> adjust_one a number (p, v) m =
  match sm_get (md_params m) i with Some (AU64 x) => Ret (set_parameter p (AU64 ((x + v) mod 2 ^ 64)) m, []) | Some _ => Ret (m, [NotSet p]) | None => Ret (m, [NoInput i]) end.
Proof. intros (H & N). cbn [adjust_one]. rewrite H. destruct i; [congruence|]. unfold has_parameter, get_parameter_u64. destruct (sm_get (md_params m) (String a0 i)) as [[]|]; reflexivity. Qed.
Lemma params_put p x m q : sm_get (md_params (set_parameter p x m)) q = if String.eqb q p then Some x else sm_get (md_params m) q.
Proof. cbn. apply sm_get_put. Qed.
Lemma same_set p x m m0 : same_but_params m m0 -> same_but_params (set_parameter p x m) m0. Proof. unfold same_but_params. cbn. tauto. Qed.

Section Adjust.
  Variables (a : adj) (m0 : meta).
  Hypotheses (OK : sm_ok (ad_adjustments a))
    (APART : forall p v i, sm_get (ad_adjustments a) p = Some v -> input_is a p i -> i = p \/ sm_get (ad_adjustments a) i = None)
    (RANGE : forall p v, sm_get (ad_adjustments a) p = Some v -> no_input a p -> - 2 ^ 63 <= md_number m0 + v < 2 ^ 63).
  Lemma adjust_all_spec l m : NoDup (map fst l) -> (forall e, In e l -> In e (ad_adjustments a)) -> same_but_params m m0 ->
    (forall q, In q (map fst l) \/ sm_get (ad_adjustments a) q = None -> sm_get (md_params m) q = sm_get (md_params m0) q) ->
    exists m' er, adjust_all a (md_number m0) l m = Ret (m', er) /\ same_but_params m' m0 /\
      (forall q, ~ In q (map fst l) -> sm_get (md_params m') q = sm_get (md_params m) q) /\ (forall q, In q (map fst l) -> adjusted a m0 q (sm_get (md_params m') q)) /\
      (forall e, In e er <-> exists p v i, In (p, v) l /\ input_is a p i /\ (sm_get (md_params m0) i = None /\ e = NoInput i \/ (exists y, sm_get (md_params m0) i = Some y /\ (forall x, y <> AU64 x)) /\ e = NotSet p)).
  Proof.
    revert m. induction l as [|[p v] l IH]; intros m ND SUB SB EQ.
    { exists m, []. cbn. split; [reflexivity|]. split; [exact SB|]. split; [auto|]. split; [intros q []|]. intros e. split; [intros []|intros (? & ? & ? & [] & _)]. }
    cbn [map fst] in ND. inversion ND as [|? ? NI ND']; subst. pose proof (sm_in_get _ p v OK (SUB _ (or_introl eq_refl))) as GP.
    assert (STEP : exists m1 er1, adjust_one a (md_number m0) (p, v) m = Ret (m1, er1) /\ same_but_params m1 m0 /\ (forall q, q <> p -> sm_get (md_params m1) q = sm_get (md_params m) q) /\ adjusted a m0 p (sm_get (md_params m1) p) /\
      (forall e, In e er1 <-> exists i, input_is a p i /\ (sm_get (md_params m0) i = None /\ e = NoInput i \/ (exists y, sm_get (md_params m0) i = Some y /\ (forall x, y <> AU64 x)) /\ e = NotSet p))).
    { destruct (input_cases a p) as [NO|(i & IN)].
      - rewrite (adjust_none _ _ _ _ _ NO). specialize (RANGE p v GP NO). unfold in_i64. destruct (Z.leb_spec (- 2 ^ 63) (md_number m0 + v)); [|lia]. destruct (Z.ltb_spec (md_number m0 + v) (2 ^ 63)); [|lia]. cbn [andb].
        eexists _, []. split; [reflexivity|]. split; [apply same_set, SB|]. split; [intros q N; rewrite params_put; destruct (String.eqb_spec q p); [contradiction|reflexivity]|]. split; [rewrite params_put, String.eqb_refl; eapply ad_number; eassumption|].
        intros e. split; [intros []|]. intros (i & (A & B) & _). destruct NO as [NO|NO]; congruence.
      - rewrite (adjust_some _ _ _ _ _ _ IN). assert (EI : sm_get (md_params m) i = sm_get (md_params m0) i) by (apply EQ; destruct (APART p v i GP IN) as [->|N]; [left; left; reflexivity|right; exact N]). rewrite EI.
        assert (U : forall i', input_is a p i' -> i' = i) by (intros i' (A & _); destruct IN as (B & _); congruence).
        destruct (sm_get (md_params m0) i) as [y|] eqn:G.
        + destruct (match y with AU64 x => Some x | _ => None end) as [x|] eqn:Y.
          * destruct y; try discriminate. injection Y as ->. eexists _, []. split; [reflexivity|]. split; [apply same_set, SB|]. split; [intros q N; rewrite params_put; destruct (String.eqb_spec q p); [contradiction|reflexivity]|]. split; [rewrite params_put, String.eqb_refl; eapply ad_input; eassumption|].
            intros e. split; [intros []|]. intros (i' & A & [(B & _)|((y & B & C) & _)]); rewrite (U _ A) in B; [congruence|]. rewrite G in B. injection B as <-. destruct (C x). reflexivity.
          * assert (NY : forall x, y <> AU64 x) by (intros x ->; discriminate). exists m, [NotSet p]. split; [destruct y; [discriminate| |]; reflexivity|]. split; [exact SB|]. split; [auto|]. split; [rewrite (EQ p) by (left; left; reflexivity); eapply ad_without; [eassumption|eassumption|]; intros x; rewrite G; intros Q; injection Q as Q; exact (NY x Q)|].
            intros e. split; [intros [<-|[]]; exists i; split; [exact IN|]; right; split; [exists y; auto|reflexivity]|]. intros (i' & A & [(B & _)|(_ & ->)]); [rewrite (U _ A) in B; congruence|left; reflexivity].
        + exists m, [NoInput i]. split; [reflexivity|]. split; [exact SB|]. split; [auto|]. split; [rewrite (EQ p) by (left; left; reflexivity); eapply ad_without; [eassumption|eassumption|]; intros x; rewrite G; discriminate|].
          intros e. split; [intros [<-|[]]; exists i; split; [exact IN|]; left; auto|]. intros (i' & A & [(B & ->)|((y & B & _) & _)]); rewrite (U _ A) in *; [left; reflexivity|congruence]. }
    destruct STEP as (m1 & er1 & E1 & SB1 & K1 & AD1 & ER1).
    destruct (IH m1 ND' (fun e I => SUB e (or_intror I)) SB1) as (m2 & er2 & E2 & SB2 & K2 & AD2 & ER2).
    { intros q [I|N]; (rewrite K1; [apply EQ; cbn [map fst In]; tauto|]); [intros ->; exact (NI I)|intros ->; congruence]. }
    exists m2, (er1 ++ er2). cbn [adjust_all]. rewrite E1. cbn [obind]. rewrite E2. cbn [obind]. split; [reflexivity|]. split; [exact SB2|]. split; [|split].
    - intros q N. cbn [map fst In] in N. rewrite K2 by tauto. apply K1. intros ->. tauto.
    - intros q [<-|I]; [cbn [fst]; rewrite K2 by exact NI; exact AD1|apply AD2, I].
    - intros e. rewrite in_app_iff, ER1, ER2. split.
      + intros [(i & A & B)|(p' & v' & i & I & A & B)]; [exists p, v, i; split; [left; reflexivity|auto]|exists p', v', i; split; [right; exact I|auto]].
      + intros (p' & v' & i & [I|I] & A & B); [injection I as <- <-; left; exists i; auto|right; exists p', v', i; auto].
  Qed.
End Adjust.

(** Each parameter of the table becomes the input plus the adjustment, all from the frame as it came, if no input is the output of
    another adjustment; all else is kept; an error exactly for each input that is missing or not a number; the frame is passed on. *)
Theorem c39_adjust_partial a f : sm_ok (ad_adjustments a) -> FrameModel.is_valid f = true ->
  (forall p v i, sm_get (ad_adjustments a) p = Some v -> input_is a p i -> i = p \/ sm_get (ad_adjustments a) i = None) ->
  (forall p v, sm_get (ad_adjustments a) p = Some v -> no_input a p -> - 2 ^ 63 <= md_number (fr_meta f) + v < 2 ^ 63) ->
  exists m er, adjust_process a f = Ret ([with_meta m f], er) /\ same_but_params m (fr_meta f) /\ (forall q, adjusted a (fr_meta f) q (sm_get (md_params m) q)) /\ (forall e, In e er <-> complains a (fr_meta f) e).
Proof.
  intros OK V AP RG. destruct (adjust_all_spec a (fr_meta f) OK AP RG (ad_adjustments a) (fr_meta f) (sm_nodup _ OK) (fun e I => I)) as (m & er & E & SB & K & AD & ER); [repeat split|auto|].
  exists m, er. unfold adjust_process. rewrite E. cbn [obind]. unfold push. assert (V' : FrameModel.is_valid (with_meta m f) = true) by (unfold FrameModel.is_valid, with_meta in *; cbn [fr_meta]; destruct SB as (_ & _ & -> & _ & _ & -> & _); exact V). rewrite V'. cbn [obind]. split; [reflexivity|]. split; [exact SB|]. split.
  - intros q. destruct (in_dec string_dec q (map fst (ad_adjustments a))) as [I|N]; [apply AD, I|]. rewrite (K q N). apply ad_keep. destruct (sm_get (ad_adjustments a) q) eqn:G; [|reflexivity]. destruct N. apply sm_get_in in G. apply (in_map fst) in G. exact G.
  - intros e. rewrite ER. split.
    + intros (p & v & i & I & IN & [(G & ->)|((y & G & NY) & ->)]); apply (sm_in_get _ _ _ OK) in I; [eapply co_missing|eapply co_type]; eassumption.
    + intros C. destruct C as [p v i G IN M|p v i y G IN M NY]; apply sm_get_in in G; exists p, v, i; split; auto; split; auto. right. split; [exists y; auto|reflexivity].
Qed.
Definition a_table := Adj [("UID", 100); ("none", 1); ("offset", -4)] [("UID", ""); ("none", "missing"); ("offset", "offset")].
Definition a_frame2 := with_meta (set_params [("offset", AU64 3); ("x", AFloat 0)] (fr_meta (a_frame raw_8bit [1; 2; 3; 4]))) (a_frame raw_8bit [1; 2; 3; 4]).
Example c39_case : sm_ok (ad_adjustments a_table) /\ exists m, adjust_process a_table a_frame2 = Ret ([with_meta m a_frame2], [NoInput "missing"]) /\ md_params m = [("UID", AU64 107); ("offset", AU64 (2 ^ 64 - 1)); ("x", AFloat 0)].
Proof. split; [cbn; repeat match goal with |- _ /\ _ => split | |- Forall _ (_ :: _) => apply Forall_cons | |- Forall _ [] => apply Forall_nil | |- True => exact Logic.I end; reflexivity|]. eexists. split; [vm_compute; reflexivity|reflexivity]. Qed.
Example c39_case_hypotheses : (forall p v i, sm_get (ad_adjustments a_table) p = Some v -> input_is a_table p i -> i = p \/ sm_get (ad_adjustments a_table) i = None) /\ (forall p v, sm_get (ad_adjustments a_table) p = Some v -> no_input a_table p -> - 2 ^ 63 <= md_number (fr_meta a_frame2) + v < 2 ^ 63).
Proof.
  split.
  - intros p v i G (I & N). apply sm_get_in in I. cbn in I. destruct I as [I|[I|[I|[]]]]; injection I as <- <-; [destruct N; reflexivity|right; reflexivity|left; reflexivity].
  - intros p v G _. apply sm_get_in in G. cbn in G. destruct G as [I|[I|[I|[]]]]; injection I as <- <-; cbn; lia.
Qed.
(** An adjusted parameter as input of a later one (in order of names): the frame's value is not used. *)
Theorem c39_order_refuted : exists a f m, sm_get (md_params (fr_meta f)) "aa" = Some (AU64 10) /\ sm_get (ad_adjustments a) "bb" = Some 1 /\ input_is a "bb" "aa" /\
  adjust_process a f = Ret ([with_meta m f], []) /\ sm_get (md_params m) "bb" = Some (AU64 1008).
Proof.
  exists (Adj [("aa", 1000); ("bb", 1)] [("aa", ""); ("bb", "aa")]), (with_meta (set_params [("aa", AU64 10)] (fr_meta a_frame2)) a_frame2), (set_params [("aa", AU64 1007); ("bb", AU64 1008)] (fr_meta a_frame2)).
  split; [reflexivity|]. split; [reflexivity|]. split; [split; [reflexivity|discriminate]|]. split; [vm_compute; reflexivity|reflexivity].
Qed.
(** Signed overflow in both plugins *)
Theorem c39_overflow_refuted : exists f, FrameModel.is_valid f = true /\ adjust_process (Adj [("id", 1)] []) f = Undef /\ offset_process (2 ^ 63 - 1) f = Undef.
Proof. exists (with_meta (Meta (2 ^ 63 - 1) "data" raw_8bit "acq" [2; 2] no_compression [] 1) a_frame2). split; [reflexivity|]. split; vm_compute; reflexivity. Qed.

(** Configuration: each row of the message is taken over, other adjustments stay; without rows all are removed. *)
Lemma row_reads x v i : row_of x v i -> get_param GInt64 (sub_msg x) "adjustment" = Ret (RInt v) /\
  has_param (sub_msg x) "input" = Ret (match i with Some _ => true | None => false end) /\ forall s, i = Some s -> get_param GStr (sub_msg x) "input" = Ret (RStr s).
Proof.
  intros [(L & R) IN]. unfold get_param. assert (G : get_raw (sub_msg x) "adjustment" = Ret (JInt v)) by (apply get_raw_at; cbn; apply leads_at in L; cbn in L; exact L). rewrite G. cbn [get_value]. unfold in_range. destruct (Z.leb_spec (- 2 ^ 63) v); [|lia]. destruct (Z.ltb_spec v (2 ^ 63)); [|lia]. split; [reflexivity|].
  destruct i as [s|].
  - destruct IN as (L2 & NN). apply leads_at in L2. assert (G2 : get_raw (sub_msg x) "input" = Ret (JStr s)) by (apply get_raw_at; cbn; cbn in L2; exact L2). split; [|intros s' E; injection E as <-; rewrite G2; cbn; rewrite (cstr_id s NN); reflexivity].
    cbn. cbn in L2. destruct x; try discriminate. destruct (find_member "input" l); [reflexivity|discriminate].
  - split; [|discriminate]. cbn. apply leads_at in L. cbn in L. destruct x; try discriminate. destruct (find_member "input" l) as [y|] eqn:F; [|reflexivity]. destruct (IN y). apply leads_at. cbn. rewrite F. reflexivity.
Qed.
Lemma configure_names_spec c rows names : (forall n, In n names -> no_slash n /\ exists x v i, In (n, x) rows /\ get_ref c n = Ret x /\ row_of x v i) -> NoDup names ->
  forall a, exists a', configure_names c names a = (a', Ret tt) /\
    (forall n, ~ In n names -> sm_get (ad_adjustments a') n = sm_get (ad_adjustments a) n /\ sm_get (ad_inputs a') n = sm_get (ad_inputs a) n) /\
    (forall n x v i, In n names -> get_ref c n = Ret x -> row_of x v i -> sm_get (ad_adjustments a') n = Some v /\ sm_get (ad_inputs a') n = Some (match i with Some s => s | None => "" end)) /\
    (sm_ok (ad_adjustments a) -> sm_ok (ad_adjustments a')).
Proof.
  intros OK ND. induction names as [|n names IH]; intros a; [exists a; cbn; split; [reflexivity|]; split; [auto|]; split; [intros ? ? ? ? []|auto]|].
  inversion ND as [|? ? NI ND']; subst. destruct (OK n (or_introl eq_refl)) as (NS & x & v & i & IN & GR & RO). destruct (row_reads x v i RO) as (R1 & R2 & R3). cbn [configure_names]. rewrite GR, R1, R2.
  assert (EX : exists a1, (forall q, sm_get (ad_adjustments a1) q = if String.eqb q n then Some v else sm_get (ad_adjustments a) q) /\ (forall q, sm_get (ad_inputs a1) q = if String.eqb q n then Some (match i with Some s => s | None => "" end) else sm_get (ad_inputs a) q) /\ (sm_ok (ad_adjustments a) -> sm_ok (ad_adjustments a1)) /\
    (match i with Some _ => match get_param GStr (sub_msg x) "input" with Ret (RStr i) => configure_names c names (Adj (sm_put (ad_adjustments a) n v) (sm_put (ad_inputs a) n i)) | Throw e => (Adj (sm_put (ad_adjustments a) n v) (ad_inputs a), Throw e) | _ => (Adj (sm_put (ad_adjustments a) n v) (ad_inputs a), Undef) end | None => configure_names c names (Adj (sm_put (ad_adjustments a) n v) (sm_put (ad_inputs a) n "")) end) = configure_names c names a1).
  { destruct i as [s|]; [rewrite (R3 s eq_refl)|]; (eexists (Adj _ _); cbn [ad_adjustments ad_inputs]; split; [intros q; apply sm_get_put|]; split; [intros q; apply sm_get_put|]; split; [intros S; apply sm_put_ok, S|reflexivity]). }
  destruct EX as (a1 & A1 & I1 & S1 & E1). cbn [ad_adjustments ad_inputs]. 
  destruct (IH (fun m M => OK m (or_intror M)) ND' a1) as (a' & E' & K' & V' & S'). exists a'. split; [rewrite <- E', <- E1; destruct i; reflexivity|]. split; [|split; [|auto]].
  - intros q N. cbn [In] in N. destruct (K' q ltac:(tauto)) as (B & C). rewrite B, C, A1, I1. destruct (String.eqb_spec q n); [subst; tauto|auto].
  - intros q x' v' i' [<-|I] G RO'; [|apply (V' q x' v' i' I G RO')]. rewrite GR in G. injection G as <-. destruct (K' n NI) as (B & C). rewrite B, C, A1, I1, String.eqb_refl.
    destruct (row_reads x v' i' RO') as (Q1 & Q2 & Q3). assert (v' = v) by congruence. subst v'. split; [reflexivity|]. destruct i as [s|], i' as [s'|]; try congruence. rewrite (R3 s eq_refl) in Q3. specialize (Q3 s' eq_refl). congruence.
Qed.
Theorem c39_configure_partial config rows a : holds config ["parameter"] (JObj rows) -> NoDup (map fst rows) ->
  (forall n x, In (n, x) rows -> no_slash n /\ no_nul n /\ exists v i, row_of x v i) ->
  exists a', adjust_configure config a = (a', Ret tt) /\ (sm_ok (ad_adjustments a) -> sm_ok (ad_adjustments a')) /\
    (rows = [] -> ad_adjustments a' = [] /\ ad_inputs a' = []) /\
    (rows <> [] -> forall n, ~ In n (map fst rows) -> sm_get (ad_adjustments a') n = sm_get (ad_adjustments a) n /\ sm_get (ad_inputs a') n = sm_get (ad_inputs a) n) /\
    (forall n x v i, In (n, x) rows -> row_of x v i -> sm_get (ad_adjustments a') n = Some v /\ sm_get (ad_inputs a') n = Some (match i with Some s => s | None => "" end)).
Proof.
  intros H ND OK. unfold adjust_configure. apply holds_at in H. pose proof H as H2. cbn [at_path] in H.
  assert (HP : has_param config "parameter" = Ret true) by (unfold has_param, params_of; destruct (find_member "params" (g_doc config)) as [p|]; [|discriminate]; cbn; destruct p; try discriminate; destruct (find_member "parameter" l); [reflexivity|discriminate]).
  assert (GR : get_ref config "parameter" = Ret (JObj rows)) by (unfold get_ref; assert (G : get_raw config "parameter" = Ret (JObj rows)) by (apply get_raw_at; exact H2); rewrite G; reflexivity). rewrite HP, GR.
  set (c := sub_msg (JObj rows)). assert (NM : get_param_names c = Ret (map fst rows)).
  { unfold get_param_names, c, sub_msg, msg_of_value, params_of. cbn [g_doc find_member String.eqb Ascii.eqb Bool.eqb]. change (find_member "params" [("params", JObj rows)]) with (Some (JObj rows)). f_equal. apply map_ext_in. intros [n x] I. cbn [fst]. apply cstr_id. apply (OK n x I). }
  rewrite NM. destruct rows as [|r0 rs]; [exists (Adj [] []); split; [reflexivity|]; split; [intros _; exact Logic.I|]; split; [auto|]; split; [congruence|intros ? ? ? ? []]|].
  set (rows := r0 :: rs) in *. assert (GET : forall n x, In (n, x) rows -> get_ref c n = Ret x).
  { intros n x I. destruct (OK n x I) as (NS & NN & _). unfold get_ref. rewrite (pieces_no_slash n NS). assert (G : get_raw c n = Ret x); [|rewrite G; reflexivity]. apply get_raw_at. rewrite (pieces_no_slash n NS). cbn [map]. rewrite (cstr_id n NN). unfold c, sub_msg, msg_of_value. cbn [g_doc at_path]. change (find_member "params" [("params", JObj rows)]) with (Some (JObj rows)). cbn [at_path].
    clear - I ND. revert I ND. generalize rows as l. induction l as [|[k y] l IH]; [intros []|]. cbn [In map fst find_member]. intros I ND. inversion ND as [|? ? NI ND']; subst. destruct (String.eqb_spec k n) as [->|N]; [|destruct I as [I|I]; [congruence|apply IH; auto]]. destruct I as [I|I]; [congruence|]. destruct NI. apply (in_map fst) in I. exact I. }
  destruct (configure_names_spec c rows (map fst rows)) with (a := a) as (a' & E & K & V & S); [|exact ND|].
  { intros n I. apply in_map_iff in I as ((n' & x) & <- & I). cbn [fst]. destruct (OK n' x I) as (NS & NN & v & i & RO). split; [exact NS|]. exists x, v, i. split; [exact I|]. split; [apply GET, I|exact RO]. }
  exists a'. split; [exact E|]. split; [exact S|]. split; [discriminate|]. split; [intros _; exact K|]. intros n x v i I RO. eapply V; [|apply GET, I|exact RO]. apply (in_map fst) in I. exact I.
Qed.
Example c39_configure_case : exists config rows, holds config ["parameter"] (JObj rows) /\ fst (adjust_configure config (Adj [("old", 1)] [])) = Adj [("UID", 5); ("old", 1)] [("UID", "id")] /\ snd (adjust_configure config (Adj [("old", 1)] [])) = Ret tt.
Proof.
  exists (sub_msg (JObj [("parameter", JObj [("UID", JObj [("adjustment", JInt 5); ("input", JStr "id")])])])), [("UID", JObj [("adjustment", JInt 5); ("input", JStr "id")])]. split; [apply holds_at; reflexivity|]. split; vm_compute; reflexivity.
Qed.

Print Assumptions c38_sum_partial.
Print Assumptions c38_other.
Print Assumptions c38_large_refuted.
Print Assumptions c39_offset_partial.
Print Assumptions c39_adjust_partial.
Print Assumptions c39_order_refuted.
Print Assumptions c39_overflow_refuted.
Print Assumptions c39_configure_partial.
