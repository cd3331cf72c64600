(** Strings: the reader follows the grammar. *)
From Coq Require Import String Ascii.
From Verif Require Import Base JsonModel JsonTextModel JsonTextSpec JsonTextProofs JsonReadModel JsonReadSpec JsonReadProofs.
Local Open Scope list_scope.
Local Open Scope char_scope.

Lemma hex_is c a : hex c a -> hex_value c = Some (Z.of_nat a) /\ a < 16.
Proof.
  intros (k & K & H). unfold hex_value, code. rewrite K. destruct H as [(R & ->)|[(R & ->)|(R & ->)]].
  - destruct (Z.leb_spec 48 (Z.of_nat k)); [|lia]. destruct (Z.leb_spec (Z.of_nat k) 57); [|lia]. cbn [andb]. split; [f_equal|]; lia.
  - destruct (Z.leb_spec (Z.of_nat k) 57); [lia|]. rewrite andb_false_r. destruct (Z.leb_spec 65 (Z.of_nat k)); [|lia]. destruct (Z.leb_spec (Z.of_nat k) 70); [|lia]. cbn [andb]. split; [f_equal|]; lia.
  - destruct (Z.leb_spec (Z.of_nat k) 57); [lia|]. rewrite andb_false_r. destruct (Z.leb_spec (Z.of_nat k) 70); [lia|]. rewrite andb_false_r. destruct (Z.leb_spec 97 (Z.of_nat k)); [|lia]. destruct (Z.leb_spec (Z.of_nat k) 102); [|lia]. cbn [andb]. split; [f_equal|]; lia.
Qed.
Lemma hex_some c z : hex_value c = Some z -> exists a, hex c a /\ z = Z.of_nat a.
Proof.
  unfold hex_value, code. destruct (Z.leb_spec 48 (num c)), (Z.leb_spec (num c) 57), (Z.leb_spec 65 (num c)), (Z.leb_spec (num c) 70), (Z.leb_spec 97 (num c)), (Z.leb_spec (num c) 102); cbn [andb]; intros E; try discriminate; injection E as <-; try lia;
    (exists (Z.to_nat (num c - 48)) + exists (Z.to_nat (num c - 55)) + exists (Z.to_nat (num c - 87))); (split; [exists (nat_of_ascii c); split; [reflexivity|lia]|lia]).
Qed.
Lemma hex4_is a b c d x y z w : hex a x -> hex b y -> hex c z -> hex d w -> hex4 a b c d = Some (Z.of_nat (16 * (16 * (16 * x + y) + z) + w)) /\ (Z.of_nat (16 * (16 * (16 * x + y) + z) + w) < 65536)%Z.
Proof. intros A B C D. apply hex_is in A as (A & LA), B as (B & LB), C as (C & LC), D as (D & LD). unfold hex4. rewrite A, B, C, D. split; [f_equal; lia|lia]. Qed.
Lemma hex4_some a b c d u : hex4 a b c d = Some u -> exists k, u = Z.of_nat k /\ hex_unit ["\"; "u"; a; b; c; d] k.
Proof.
  unfold hex4. destruct (hex_value a) as [x|] eqn:A; [|discriminate]. destruct (hex_value b) as [y|] eqn:B; [|discriminate]. destruct (hex_value c) as [z|] eqn:C; [|discriminate]. destruct (hex_value d) as [w|] eqn:D; [|discriminate]. intros E. injection E as <-.
  apply hex_some in A as (x' & A & ->), B as (y' & B & ->), C as (z' & C & ->), D as (w' & D & ->). exists (16 * (16 * (16 * x' + y') + z') + w'). split; [lia|]. do 8 eexists. repeat (split; [first [reflexivity|eassumption]|]). reflexivity.
Qed.

(** ** UTF-8 *)
Lemma nat_byte z : (0 <= z < 256)%Z -> nat_of_ascii (byte z) = Z.to_nat z.
Proof. intros H. unfold byte. rewrite Z.mod_small by lia. apply nat_ascii_embedding. lia. Qed.
Lemma lor_add a b n : (0 <= n)%Z -> (0 <= b < 2 ^ n)%Z -> Z.lor (Z.shiftl a n) b = (a * 2 ^ n + b)%Z.
Proof.
  intros N B. rewrite <- Z.shiftl_mul_pow2 by lia. assert (L : Z.land (Z.shiftl a n) b = 0%Z).
  { apply Z.bits_inj'. intros k K. rewrite Z.land_spec, Z.bits_0. destruct (Z.lt_ge_cases k n).
    - rewrite Z.shiftl_spec_low by lia. reflexivity.
    - replace b with (b mod 2 ^ n)%Z by (apply Z.mod_small; lia). rewrite Z.mod_pow2_bits_high by lia. apply andb_false_r. }
  rewrite <- Z.lxor_lor by exact L. symmetry. apply Z.add_nocarry_lxor, L.
Qed.
Lemma land63 z : (0 <= z)%Z -> Z.land z 63 = (z mod 64)%Z. Proof. intros H. change 63%Z with (Z.ones 6). rewrite Z.land_ones by lia. reflexivity. Qed.
Lemma land255 z : (0 <= z)%Z -> Z.land z 255 = (z mod 256)%Z. Proof. intros H. change 255%Z with (Z.ones 8). rewrite Z.land_ones by lia. reflexivity. Qed.
Lemma head_byte k a n : (0 <= n)%Z -> (0 <= a < 2 ^ n)%Z -> Z.lor (k * 2 ^ n) a = (k * 2 ^ n + a)%Z.
Proof. intros N A. rewrite <- Z.shiftl_mul_pow2 by lia. rewrite lor_add by lia. rewrite Z.shiftl_mul_pow2 by lia. reflexivity. Qed.
Lemma lor128 a : (0 <= a < 64)%Z -> Z.lor 128 a = (128 + a)%Z. Proof. intros A. change 128%Z with (2 * 2 ^ 6)%Z. apply head_byte; lia. Qed.
Lemma lor192 a : (0 <= a < 32)%Z -> Z.lor 192 a = (192 + a)%Z. Proof. intros A. change 192%Z with (6 * 2 ^ 5)%Z. apply head_byte; lia. Qed.
Lemma lor224 a : (0 <= a < 16)%Z -> Z.lor 224 a = (224 + a)%Z. Proof. intros A. change 224%Z with (14 * 2 ^ 4)%Z. apply head_byte; lia. Qed.
Lemma lor240 a : (0 <= a < 8)%Z -> Z.lor 240 a = (240 + a)%Z. Proof. intros A. change 240%Z with (30 * 2 ^ 3)%Z. apply head_byte; lia. Qed.
Lemma shr z n : (0 <= n)%Z -> Z.shiftr z n = (z / 2 ^ n)%Z. Proof. apply Z.shiftr_div_pow2. Qed.
Lemma utf8_is u l : utf8_bytes u l -> codes (utf8 (Z.of_nat u)) l.
Proof.
  intros H. unfold codes, utf8. inversion H as [a A|a b A B|a b c A B C G|a b c d B C D G]; subst.
  - destruct (Z.leb_spec (Z.of_nat u) 127); [|lia]. cbn [map]. rewrite nat_byte by lia. f_equal. lia.
  - set (z := Z.of_nat (64 * a + b)). assert (EZ : z = (64 * Z.of_nat a + Z.of_nat b)%Z) by lia. destruct (Z.leb_spec z 127); [lia|]. destruct (Z.leb_spec z 2047); [|lia].
    rewrite !shr, land63, land255 by (try apply Z.div_pos; lia). change (2 ^ 6)%Z with 64%Z.
    assert (Q : (z / 64 = Z.of_nat a)%Z) by (symmetry; apply (Z.div_unique_pos z 64 _ (Z.of_nat b)); lia). assert (R : (z mod 64 = Z.of_nat b)%Z) by (symmetry; apply (Z.mod_unique_pos z 64 (Z.of_nat a)); lia).
    rewrite Q, R, Z.mod_small, lor192, lor128 by lia. cbn [map]. rewrite !nat_byte by lia. repeat f_equal; lia.
  - set (z := Z.of_nat (64 * (64 * a + b) + c)). assert (EZ : z = (64 * (64 * Z.of_nat a + Z.of_nat b) + Z.of_nat c)%Z) by lia. destruct (Z.leb_spec z 127); [lia|]. destruct (Z.leb_spec z 2047); [lia|]. destruct (Z.leb_spec z 65535); [|lia].
    rewrite !shr by lia. change (2 ^ 6)%Z with 64%Z. change (2 ^ 12)%Z with 4096%Z.
    assert (Q : (z / 64 = 64 * Z.of_nat a + Z.of_nat b)%Z) by (symmetry; apply (Z.div_unique_pos z 64 _ (Z.of_nat c)); lia). assert (R : (z mod 64 = Z.of_nat c)%Z) by (symmetry; apply (Z.mod_unique_pos z 64 (64 * Z.of_nat a + Z.of_nat b)); lia).
    assert (Q2 : (z / 4096 = Z.of_nat a)%Z) by (symmetry; apply (Z.div_unique_pos z 4096 _ (64 * Z.of_nat b + Z.of_nat c)); lia). assert (R2 : ((64 * Z.of_nat a + Z.of_nat b) mod 64 = Z.of_nat b)%Z) by (symmetry; apply (Z.mod_unique_pos _ 64 (Z.of_nat a)); lia).
    rewrite Q, Q2, !land63, land255, R, R2, (Z.mod_small (Z.of_nat a)), lor224, !lor128 by lia. cbn [map]. rewrite !nat_byte by lia. repeat f_equal; lia.
  - set (z := Z.of_nat (64 * (64 * (64 * a + b) + c) + d)). assert (EZ : z = (64 * (64 * (64 * Z.of_nat a + Z.of_nat b) + Z.of_nat c) + Z.of_nat d)%Z) by lia. destruct (Z.leb_spec z 127); [lia|]. destruct (Z.leb_spec z 2047); [lia|]. destruct (Z.leb_spec z 65535); [lia|].
    rewrite !shr by lia. change (2 ^ 6)%Z with 64%Z. change (2 ^ 12)%Z with 4096%Z. change (2 ^ 18)%Z with 262144%Z.
    assert (Q : (z / 64 = 64 * (64 * Z.of_nat a + Z.of_nat b) + Z.of_nat c)%Z) by (symmetry; apply (Z.div_unique_pos z 64 _ (Z.of_nat d)); lia). assert (R : (z mod 64 = Z.of_nat d)%Z) by (symmetry; apply (Z.mod_unique_pos z 64 (64 * (64 * Z.of_nat a + Z.of_nat b) + Z.of_nat c)); lia).
    assert (Q2 : (z / 4096 = 64 * Z.of_nat a + Z.of_nat b)%Z) by (symmetry; apply (Z.div_unique_pos z 4096 _ (64 * Z.of_nat c + Z.of_nat d)); lia). assert (R2 : ((64 * (64 * Z.of_nat a + Z.of_nat b) + Z.of_nat c) mod 64 = Z.of_nat c)%Z) by (symmetry; apply (Z.mod_unique_pos _ 64 (64 * Z.of_nat a + Z.of_nat b)); lia).
    assert (Q3 : (z / 262144 = Z.of_nat a)%Z) by (symmetry; apply (Z.div_unique_pos z 262144 _ (64 * (64 * Z.of_nat b + Z.of_nat c) + Z.of_nat d)); lia). assert (R3 : ((64 * Z.of_nat a + Z.of_nat b) mod 64 = Z.of_nat b)%Z) by (symmetry; apply (Z.mod_unique_pos _ 64 (Z.of_nat a)); lia).
    rewrite Q, Q2, Q3, !land63, land255, R, R2, R3, (Z.mod_small (Z.of_nat a)), lor240, !lor128 by lia. cbn [map]. rewrite !nat_byte by lia. repeat f_equal; lia.
Qed.
Lemma utf8_exists u : (Z.of_nat u < 1114112)%Z -> exists l, utf8_bytes u l.
Proof.
  intros H. destruct (Nat.lt_ge_cases u 128); [eexists; apply u8_1; assumption|].
  pose proof (Nat.div_mod_eq u 64) as E0. pose proof (Nat.mod_upper_bound u 64 ltac:(lia)) as B0. set (q := u / 64) in *. set (d := u mod 64) in *. clearbody q d.
  destruct (Nat.lt_ge_cases u 2048). { eexists. rewrite E0. apply u8_2; lia. }
  pose proof (Nat.div_mod_eq q 64) as E1. pose proof (Nat.mod_upper_bound q 64 ltac:(lia)) as B1. set (p := q / 64) in *. set (c := q mod 64) in *. clearbody p c. subst q.
  destruct (Z.lt_ge_cases (Z.of_nat u) 65536). { eexists. rewrite E0. apply u8_3; lia. }
  pose proof (Nat.div_mod_eq p 64) as E2. pose proof (Nat.mod_upper_bound p 64 ltac:(lia)) as B2. set (a := p / 64) in *. set (b := p mod 64) in *. clearbody a b. subst p. eexists. rewrite E0. apply u8_4; lia.
Qed.
Lemma codes_inj a b l : codes a l -> codes b l -> a = b.
Proof.
  unfold codes. intros <-. revert b. induction a as [|x a IH]; intros [|y b] E; cbn in E; try discriminate; [reflexivity|]. injection E as E1 E2. rewrite (IH b E2). rewrite <- (ascii_nat_embedding x), <- (ascii_nat_embedding y), E1. reflexivity.
Qed.
Lemma codes1 s k : k < 256 -> codes s [k] -> s = [ascii_of_nat k].
Proof. intros K H. apply (codes_inj _ _ [k] H). unfold codes. cbn [map]. rewrite nat_ascii_embedding by exact K. reflexivity. Qed.

(** ** Completeness *)
Lemma prepend_app a b o : prepend (a ++ b) o = prepend a (prepend b o). Proof. destruct o as [[t q]|]; cbn; [rewrite app_assoc|]; reflexivity. Qed.
Lemma chars_plain c r : c <> "\" -> c <> """" -> 32 <= nat_of_ascii c -> parse_chars (c :: r) = prepend [c] (parse_chars r).
Proof.
  intros A B H. cbn [parse_chars]. destruct (Ascii.eqb_spec c "\"); [contradiction|]. destruct (Ascii.eqb_spec c """"); [contradiction|]. unfold code. destruct (Z.ltb_spec (num c) 32); [lia|reflexivity].
Qed.
Lemma chars_escape e c r : unescape e = Some c -> parse_chars ("\" :: e :: r) = prepend [c] (parse_chars r).
Proof. intros U. cbn [parse_chars Ascii.eqb Bool.eqb andb]. rewrite U. reflexivity. Qed.
Lemma chars_unit h1 h2 h3 h4 cp r : hex4 h1 h2 h3 h4 = Some cp -> ((55296 <=? cp) && (cp <=? 56319))%Z = false -> parse_chars ("\" :: "u" :: h1 :: h2 :: h3 :: h4 :: r) = prepend (utf8 cp) (parse_chars r).
Proof. intros H S. change (parse_chars ("\" :: "u" :: h1 :: h2 :: h3 :: h4 :: r)) with (match hex4 h1 h2 h3 h4 with None => None | Some cp => if ((55296 <=? cp) && (cp <=? 56319))%Z then match r with | b :: u :: k1 :: k2 :: k3 :: k4 :: r => if Ascii.eqb b "\" && Ascii.eqb u "u" then match hex4 k1 k2 k3 k4 with None => None | Some cp2 => if ((cp2 <? 56320) || (57343 <? cp2))%Z then None else prepend (utf8 (Z.lor (Z.shiftl (cp - 55296) 10) (cp2 - 56320) + 65536)) (parse_chars r) end else None | _ => None end else prepend (utf8 cp) (parse_chars r) end). rewrite H, S. reflexivity. Qed.
Lemma chars_pair h1 h2 h3 h4 k1 k2 k3 k4 cp cp2 r : hex4 h1 h2 h3 h4 = Some cp -> ((55296 <=? cp) && (cp <=? 56319))%Z = true -> hex4 k1 k2 k3 k4 = Some cp2 ->
  parse_chars ("\" :: "u" :: h1 :: h2 :: h3 :: h4 :: "\" :: "u" :: k1 :: k2 :: k3 :: k4 :: r) = if ((cp2 <? 56320) || (57343 <? cp2))%Z then None else prepend (utf8 (Z.lor (Z.shiftl (cp - 55296) 10) (cp2 - 56320) + 65536)) (parse_chars r).
Proof. intros H S K. change (parse_chars ("\" :: "u" :: h1 :: h2 :: h3 :: h4 :: "\" :: "u" :: k1 :: k2 :: k3 :: k4 :: r)) with (match hex4 h1 h2 h3 h4 with None => None | Some cp => if ((55296 <=? cp) && (cp <=? 56319))%Z then match hex4 k1 k2 k3 k4 with None => None | Some cp2 => if ((cp2 <? 56320) || (57343 <? cp2))%Z then None else prepend (utf8 (Z.lor (Z.shiftl (cp - 55296) 10) (cp2 - 56320) + 65536)) (parse_chars r) end else prepend (utf8 cp) (parse_chars ("\" :: "u" :: k1 :: k2 :: k3 :: k4 :: r)) end). rewrite H, S, K. reflexivity. Qed.
Lemma pair_value a b hi lo : (0 <= lo < 1024)%Z -> a = (55296 + hi)%Z -> b = (56320 + lo)%Z -> (Z.lor (Z.shiftl (a - 55296) 10) (b - 56320) + 65536 = 65536 + 1024 * hi + lo)%Z.
Proof. intros L -> ->. rewrite lor_add by lia. change (2 ^ 10)%Z with 1024%Z. lia. Qed.
Lemma piece_complete s t r : piece s t -> parse_chars (t ++ r) = prepend s (parse_chars r).
Proof.
  intros P. inversion P as [c H N1 N2| | | |s' C|s' C|s' C|s' C|s' C|s' l t' u HU NS UB C|s' l t1 t2 ka kb ku hi lo H1 H2 LH LL Ea Eb Eu UB C]; subst; cbn [app].
  - apply chars_plain; assumption.
  - apply chars_escape. reflexivity.
  - apply chars_escape. reflexivity.
  - apply chars_escape. reflexivity.
  - rewrite (codes1 _ 8 ltac:(lia) C). apply chars_escape. reflexivity.
  - rewrite (codes1 _ 12 ltac:(lia) C). apply chars_escape. reflexivity.
  - rewrite (codes1 _ 10 ltac:(lia) C). apply chars_escape. reflexivity.
  - rewrite (codes1 _ 13 ltac:(lia) C). apply chars_escape. reflexivity.
  - rewrite (codes1 _ 9 ltac:(lia) C). apply chars_escape. reflexivity.
  - destruct HU as (h1 & h2 & h3 & h4 & a & b & c & d & -> & A & B & CC & D & ->). destruct (hex4_is _ _ _ _ _ _ _ _ A B CC D) as (E & _). cbn [app]. rewrite (chars_unit _ _ _ _ _ r E).
    + rewrite (codes_inj _ _ _ C (utf8_is _ _ UB)). reflexivity.
    + apply andb_false_iff. destruct (Z.leb_spec 55296 (Z.of_nat (16 * (16 * (16 * a + b) + c) + d))); [right|left; reflexivity]. apply Z.leb_gt. lia.
  - destruct H1 as (h1 & h2 & h3 & h4 & a & b & c & d & -> & A & B & CC & D & E1). destruct H2 as (k1 & k2 & k3 & k4 & a' & b' & c' & d' & -> & A' & B' & CC' & D' & E2). destruct (hex4_is _ _ _ _ _ _ _ _ A B CC D) as (X & _). destruct (hex4_is _ _ _ _ _ _ _ _ A' B' CC' D') as (X' & _). rewrite <- E1 in X. rewrite <- E2 in X'.
    cbn [app]. assert (SU : ((55296 <=? Z.of_nat ka) && (Z.of_nat ka <=? 56319))%Z = true) by (apply andb_true_iff; split; apply Z.leb_le; lia). rewrite (chars_pair _ _ _ _ _ _ _ _ _ _ r X SU X'). destruct (Z.ltb_spec (Z.of_nat kb) 56320); [lia|]. destruct (Z.ltb_spec 57343 (Z.of_nat kb)); [lia|]. cbn [orb]. rewrite (pair_value _ _ hi lo LL Ea Eb), <- Eu, (codes_inj _ _ _ C (utf8_is _ _ UB)). reflexivity.
Qed.
Lemma chars_complete s t : pieces_text s t -> forall q, parse_chars (t ++ """" :: q) = Some (s, q).
Proof.
  induction 1 as [|s t s' t' P _ IH]; intros q; [reflexivity|]. rewrite <- app_assoc, (piece_complete s t _ P), IH. reflexivity.
Qed.
Lemma string_complete s t q : str_text s t -> parse_string (t ++ q) = Some (s, q).
Proof.
  intros (r & P & ->). unfold parse_string. cbn [app]. rewrite consume_hd, <- app_assoc. cbn [app]. rewrite (chars_complete _ _ P). rewrite string_of_list_ascii_of_string. reflexivity.
Qed.

(** ** Soundness *)
Lemma unescape_piece e c : unescape e = Some c -> piece [c] ["\"; e].
Proof.
  unfold unescape, escapes. cbn [find fst snd]. repeat match goal with |- context [Ascii.eqb ?a ?b] => destruct (Ascii.eqb_spec a b) as [<-|] end; intros E; try discriminate; injection E as <-; first [apply pc_quote|apply pc_slash|apply pc_backslash|apply pc_b; reflexivity|apply pc_f; reflexivity|apply pc_n; reflexivity|apply pc_r; reflexivity|apply pc_t; reflexivity].
Qed.
Lemma prepend_some a o t q : prepend a o = Some (t, q) -> exists u, o = Some (u, q) /\ t = a ++ u.
Proof. destruct o as [[u q']|]; cbn; [|discriminate]. intros E. injection E as <- <-. eauto. Qed.
Lemma chars_sound n : forall s t q, List.length s <= n -> parse_chars s = Some (t, q) -> exists u, s = u ++ """" :: q /\ pieces_text t u.
Proof.
  induction n as [|n IH]; intros s t q L H.
  - destruct s; [discriminate|cbn in L; lia].
  - assert (GO : forall a u r, List.length u + List.length r <= S n -> u <> [] -> piece a u -> prepend a (parse_chars r) = Some (t, q) -> exists v, u ++ r = v ++ """" :: q /\ pieces_text t v).
    { intros a u r LL NE P X. apply prepend_some in X as (w & X & ->). destruct (IH r w q) as (v & -> & PV); [destruct u; [congruence|cbn in LL; lia]|exact X|]. exists (u ++ v). split; [rewrite <- app_assoc; reflexivity|]. constructor; assumption. }
    destruct s as [|c r]; [discriminate|]. destruct (Ascii.eqb_spec c "\") as [->|NB].
    + destruct r as [|e r]; [discriminate|]. destruct (unescape e) as [c|] eqn:U.
      * rewrite (chars_escape e c r U) in H. apply (GO [c] ["\"; e] r); [cbn in L |- *; lia|discriminate|apply unescape_piece, U|exact H].
      * destruct (Ascii.eqb_spec e "u") as [->|NU]; [|cbn [parse_chars Ascii.eqb Bool.eqb andb] in H; rewrite U in H; destruct (Ascii.eqb_spec e "u"); [contradiction|discriminate]].
        destruct r as [|h1 r]; [discriminate|]. destruct r as [|h2 r]; [discriminate|]. destruct r as [|h3 r]; [discriminate|]. destruct r as [|h4 r]; [discriminate|].
        destruct (hex4 h1 h2 h3 h4) as [cp|] eqn:HX; [|change (match hex4 h1 h2 h3 h4 with None => None | Some cp => if ((55296 <=? cp) && (cp <=? 56319))%Z then match r with | b :: u :: k1 :: k2 :: k3 :: k4 :: r => if Ascii.eqb b "\" && Ascii.eqb u "u" then match hex4 k1 k2 k3 k4 with None => None | Some cp2 => if ((cp2 <? 56320) || (57343 <? cp2))%Z then None else prepend (utf8 (Z.lor (Z.shiftl (cp - 55296) 10) (cp2 - 56320) + 65536)) (parse_chars r) end else None | _ => None end else prepend (utf8 cp) (parse_chars r) end = Some (t, q)) in H; rewrite HX in H; discriminate].
        destruct (hex4_some _ _ _ _ _ HX) as (k & EK & HU). assert (KB : (Z.of_nat k < 65536)%Z). { destruct HU as (? & ? & ? & ? & a & b & c & d & _ & A & B & C & D & ->). exact (proj2 (hex4_is _ _ _ _ _ _ _ _ A B C D)). }
        destruct ((55296 <=? cp) && (cp <=? 56319))%Z eqn:SU.
        -- change (match hex4 h1 h2 h3 h4 with None => None | Some cp => if ((55296 <=? cp) && (cp <=? 56319))%Z then match r with | b :: u :: k1 :: k2 :: k3 :: k4 :: r => if Ascii.eqb b "\" && Ascii.eqb u "u" then match hex4 k1 k2 k3 k4 with None => None | Some cp2 => if ((cp2 <? 56320) || (57343 <? cp2))%Z then None else prepend (utf8 (Z.lor (Z.shiftl (cp - 55296) 10) (cp2 - 56320) + 65536)) (parse_chars r) end else None | _ => None end else prepend (utf8 cp) (parse_chars r) end = Some (t, q)) in H. rewrite HX, SU in H.
           destruct r as [|b r]; [discriminate|]. destruct r as [|u r]; [discriminate|]. destruct r as [|k1 r]; [discriminate|]. destruct r as [|k2 r]; [discriminate|]. destruct r as [|k3 r]; [discriminate|]. destruct r as [|k4 r]; [discriminate|].
           destruct (Ascii.eqb_spec b "\") as [->|]; [|discriminate]. destruct (Ascii.eqb_spec u "u") as [->|]; [|discriminate]. cbn [andb] in H. destruct (hex4 k1 k2 k3 k4) as [cp2|] eqn:HX2; [|discriminate]. destruct ((cp2 <? 56320) || (57343 <? cp2))%Z eqn:LS; [discriminate|]. apply orb_false_iff in LS as (L1 & L2). apply Z.ltb_ge in L1, L2.
           destruct (hex4_some _ _ _ _ _ HX2) as (k' & EK' & HU'). apply andb_true_iff in SU as (S1 & S2). apply Z.leb_le in S1, S2. subst cp cp2.
           rewrite (pair_value _ _ (Z.of_nat k - 55296) (Z.of_nat k' - 56320)) in H by lia. set (cp := (65536 + 1024 * (Z.of_nat k - 55296) + (Z.of_nat k' - 56320))%Z) in *. assert (ECP : Z.of_nat (Z.to_nat cp) = cp) by (apply Z2Nat.id; lia).
           destruct (utf8_exists (Z.to_nat cp)) as (l & UB); [lia|]. rewrite <- ECP in H.
           apply (GO _ (["\"; "u"; h1; h2; h3; h4] ++ ["\"; "u"; k1; k2; k3; k4]) r) in H; [exact H|cbn in L |- *; lia|discriminate|].
           apply (pc_pair _ l _ _ k k' (Z.to_nat cp) (Z.of_nat k - 55296) (Z.of_nat k' - 56320)); [exact HU|exact HU'|lia|lia|lia|lia|exact ECP|exact UB|apply utf8_is, UB].
        -- rewrite (chars_unit _ _ _ _ _ r HX SU) in H. destruct (utf8_exists k) as (l & UB); [lia|]. apply (GO _ ["\"; "u"; h1; h2; h3; h4] r) in H; [exact H|cbn in L |- *; lia|discriminate|]. subst cp. apply (pc_unit _ l _ k); [exact HU| |exact UB|apply utf8_is, UB]. intros R. apply andb_false_iff in SU as [S1|S1]; apply Z.leb_gt in S1; lia.
    + cbn [parse_chars] in H. destruct (Ascii.eqb_spec c "\"); [contradiction|]. destruct (Ascii.eqb_spec c """") as [->|NQ]; [injection H as <- <-; exists []; split; [reflexivity|constructor]|]. unfold code in H. destruct (Z.ltb_spec (num c) 32); [discriminate|].
      apply (GO [c] [c] r) in H; [exact H|cbn in L |- *; lia|discriminate|]. constructor; [lia|exact NQ|exact NB].
Qed.
Lemma string_sound s n q : parse_string s = Some (n, q) -> exists t, s = t ++ q /\ str_text n t.
Proof.
  unfold parse_string. destruct (consume """" s) as [r|] eqn:C; [|discriminate]. apply consume_some in C. subst s. destruct (parse_chars r) as [[t q']|] eqn:P; [|discriminate]. intros E. injection E as <- <-. destruct (chars_sound _ _ _ _ (le_n _) P) as (u & -> & PT).
  exists ("""" :: u ++ [""""]). split; [cbn; rewrite <- app_assoc; reflexivity|]. exists u. rewrite list_ascii_of_string_of_list_ascii. auto.
Qed.
