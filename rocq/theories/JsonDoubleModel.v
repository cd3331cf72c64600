(** Doubles to text: rapidjson's Writer::WriteDouble with its default flags.  common/include/rapidjson/writer.h, internal/dtoa.h,
    internal/diyfp.h, internal/ieee754.h.  Unsigned 64 bit arithmetic wraps around. *)
From Coq Require Import String Ascii SpecFloat.
From Verif Require Import Base JsonModel JsonTextModel JsonReadModel.
Local Open Scope list_scope.
Local Open Scope char_scope.
Local Open Scope Z_scope.

Definition w64 (z : Z) : Z := z mod 2 ^ 64.
(** The parts of the 64 bits, ieee754.h:38-48 *)
Definition sign_bit (b : Z) : bool := Z.testbit b 63.
Definition exponent (b : Z) : Z := (b / 2 ^ 52) mod 2 ^ 11.
Definition significand (b : Z) : Z := b mod 2 ^ 52.
Definition finite (b : Z) : bool := negb (exponent b =? 2047).

(** DiyFp, diyfp.h:45-242: f and e *)
Definition diy := (Z * Z)%type.
Definition diy_of (b : Z) : diy := if exponent b =? 0 then (significand b, -1074) else (significand b + 2 ^ 52, exponent b - 1075).
Definition diy_mul (x y : diy) : diy :=
  let p := fst x * fst y in (w64 (p / 2 ^ 64 + (if Z.testbit p 63 then 1 else 0)), snd x + snd y + 64).
(** Normalize, lines 107-125; of a positive f *)
Definition normalize (x : diy) : diy := let s := 63 - Z.log2 (fst x) in (w64 (Z.shiftl (fst x) s), snd x - s).
(** NormalizeBoundary, lines 127-136.  The shifts go on to bit 53; f is positive and below 2^54. *)
Definition normalize_boundary (x : diy) : diy := let s := 53 - Z.log2 (fst x) in (w64 (Z.shiftl (fst x) (s + 10)), snd x - s - 10).
(** NormalizedBoundaries, lines 138-145 *)
Definition boundaries (x : diy) : diy * diy :=
  let '(f, e) := x in
  let pl := normalize_boundary (w64 (f * 2 + 1), e - 1) in
  let '(mf, me) := if f =? 2 ^ 52 then (w64 (f * 4 - 1), e - 2) else (w64 (f * 2 - 1), e - 1) in
  ((w64 (Z.shiftl mf (me - snd pl)), snd pl), pl).
(** kCachedPowers_F and kCachedPowers_E, lines 169-230 *)
Definition powers_f : list Z :=
  [18054884314459144840; 13451937075301367670; 10022474136428063862; 14934650266808366570;
   11127181549972568877; 16580792590934885855; 12353653155963782858; 18408377700990114895;
   13715310171984221708; 10218702384817765436; 15227053142812498563; 11345038669416679861;
   16905424996341287883; 12595523146049147757; 9384396036005875287; 13983839803942852151;
   10418772551374772303; 15525180923007089351; 11567161174868858868; 17236413322193710309;
   12842128665889583758; 9568131466127621947; 14257626930069360058; 10622759856335341974;
   15829145694278690180; 11793632577567316726; 17573882009934360870; 13093562431584567480;
   9755464219737475723; 14536774485912137811; 10830740992659433045; 16139061738043178685;
   12024538023802026127; 17917957937422433684; 13349918974505688015; 9946464728195732843;
   14821387422376473014; 11042794154864902060; 16455045573212060422; 12259964326927110867;
   18268770466636286478; 13611294676837538539; 10141204801825835212; 15111572745182864684;
   11258999068426240000; 16777216000000000000; 12500000000000000000; 9313225746154785156;
   13877787807814456755; 10339757656912845936; 15407439555097886824; 11479437019748901445;
   17105694144590052135; 12744735289059618216; 9495567745759798747; 14149498560666738074;
   10542197943230523224; 15709099088952724970; 11704190886730495818; 17440603504673385349;
   12994262207056124023; 9681479787123295682; 14426529090290212157; 10748601772107342003;
   16016664761464807395; 11933345169920330789; 17782069995880619868; 13248674568444952270;
   9871031767461413346; 14708983551653345445; 10959046745042015199; 16330252207878254650;
   12166986024289022870; 18130221999122236476; 13508068024458167312; 10064294952495520794;
   14996968138956309548; 11173611982879273257; 16649979327439178909; 12405201291620119593;
   9242595204427927429; 13772540099066387757; 10261342003245940623; 15290591125556738113;
   11392378155556871081; 16975966327722178521; 12648080533535911531].
Definition powers_e : list Z :=
  [(-1220); (-1193); (-1166); (-1140); (-1113); (-1087); (-1060); (-1034); (-1007); (-980); (-954); (-927); (-901); (-874); (-847); (-821);
   (-794); (-768); (-741); (-715); (-688); (-661); (-635); (-608); (-582); (-555); (-529); (-502); (-475); (-449); (-422); (-396);
   (-369); (-343); (-316); (-289); (-263); (-236); (-210); (-183); (-157); (-130); (-103); (-77); (-50); (-24); 3; 30;
   56; 83; 109; 136; 162; 189; 216; 242; 269; 295; 322; 348; 375; 402; 428; 455;
   481; 508; 534; 561; 588; 614; 641; 667; 694; 720; 747; 774; 800; 827; 853; 880;
   907; 933; 960; 986; 1013; 1039; 1066].
(** GetCachedPower, lines 234-247: the power and K.  0.30102999566398114 as a double; dk is positive. *)
Definition trunc (d : double) : Z := match d with S754_finite _ m e => if e <? 0 then Z.pos m / 2 ^ (- e) else Z.pos m * 2 ^ e | _ => 0 end.
Definition of_int (z : Z) : double := binary_normalize prec emax z 0 false.
Definition cached_power (e : Z) : diy * Z :=
  let dk := dadd (dmul (of_int (-61 - e)) (S754_finite false 5422874305198078 (-54))) (of_int 347) in
  let k := trunc dk in
  let k := if SFltb (S754_zero false) (SFsub prec emax dk (of_int k)) then k + 1 else k in
  let index := k / 8 + 1 in
  ((nth (Z.to_nat index) powers_f 0, nth (Z.to_nat index) powers_e 0), 348 - index * 8).

(** GrisuRound, dtoa.h:36-43: [d] is buffer[len - 1].  At most ten rounds change a digit (a digit below '0' does not occur); [n] bounds the loop. *)
Fixpoint grisu_round (n : nat) (d delta rest ten_kappa wp_w : Z) : Z :=
  match n with
  | O => d
  | S n => if (rest <? wp_w) && (ten_kappa <=? w64 (delta - rest)) && ((w64 (rest + ten_kappa) <? wp_w) || (w64 (w64 (rest + ten_kappa) - wp_w) <? w64 (wp_w - rest)))
           then grisu_round n (d - 1) delta (w64 (rest + ten_kappa)) ten_kappa wp_w else d
  end.
Definition round_last (buffer : list Z) (delta rest ten_kappa wp_w : Z) : list Z :=
  match rev buffer with [] => [] | d :: r => rev r ++ [grisu_round 10 d delta rest ten_kappa wp_w] end.
(** CountDecimalDigit32, lines 45-59 *)
Definition count_digits (n : Z) : nat :=
  if n <? 10 then 1 else if n <? 100 then 2 else if n <? 1000 then 3 else if n <? 10000 then 4 else if n <? 100000 then 5 else if n <? 1000000 then 6
  else if n <? 10000000 then 7 else if n <? 100000000 then 8 else 9.
Definition push (buffer : list Z) (d : Z) : list Z := match buffer with [] => if d =? 0 then [] else [d] | _ => buffer ++ [d] end.
(** The second loop of DigitGen, lines 93-110.  [i]: -kappa.  [n] bounds the loop. *)
Fixpoint digits_below (n : nat) (e p2 delta wp_w i : Z) (buffer : list Z) : list Z * Z :=
  match n with
  | O => (buffer, - i)
  | S n =>
    let p2 := w64 (p2 * 10) in
    let delta := w64 (delta * 10) in
    let buffer := push buffer (p2 / 2 ^ e) in
    let p2 := p2 mod 2 ^ e in
    let i := i + 1 in
    if p2 <? delta then (round_last buffer delta p2 (2 ^ e) (w64 (wp_w * (if i <? 9 then 10 ^ i else 0))), - i)
    else digits_below n e p2 delta wp_w i buffer
  end.
(** The first loop, lines 70-91 *)
Fixpoint digits_above (kappa : nat) (e p1 p2 delta wp_w : Z) (buffer : list Z) : list Z * Z :=
  match kappa with
  | O => digits_below 20 e p2 delta wp_w 0 buffer
  | S kappa =>
    let buffer := push buffer (p1 / 10 ^ Z.of_nat kappa) in
    let p1 := p1 mod 10 ^ Z.of_nat kappa in
    let tmp := w64 (p1 * 2 ^ e + p2) in
    if tmp <=? delta then (round_last buffer delta tmp (w64 (10 ^ Z.of_nat kappa * 2 ^ e)) wp_w, Z.of_nat kappa)
    else digits_above kappa e p1 p2 delta wp_w buffer
  end.
(** DigitGen, lines 61-111 *)
Definition digit_gen (w mp : diy) (delta : Z) : list Z * Z :=
  let e := - snd mp in
  let p1 := (fst mp / 2 ^ e) mod 2 ^ 32 in
  digits_above (count_digits p1) e p1 (fst mp mod 2 ^ e) delta (w64 (fst mp - fst w)) [].
(** Grisu2, lines 113-125: the digits and K *)
Definition grisu2 (b : Z) : list Z * Z :=
  let v := diy_of b in
  let '(wm, wp) := boundaries v in
  let '(c, k) := cached_power (snd wp) in
  let w := diy_mul (normalize v) c in
  let wp := diy_mul wp c in
  let wm := diy_mul wm c in
  let wm := (w64 (fst wm + 1), snd wm) in
  let wp := (w64 (fst wp - 1), snd wp) in
  let '(ds, dk) := digit_gen w wp (w64 (fst wp - fst wm)) in (ds, k + dk).

Definition chr (d : Z) : ascii := ascii_of_nat (Z.to_nat (48 + d)).
Definition zeros (n : Z) : list ascii := repeat "0" (Z.to_nat n).
(** WriteExponent, lines 127-150: one, two or three digits *)
Definition write_exponent (k : Z) : list ascii :=
  (if k <? 0 then ["-"] else []) ++ (let k := Z.abs k in if 100 <=? k then [chr (k / 100); chr (k mod 100 / 10); chr (k mod 10)] else if 10 <=? k then [chr (k / 10); chr (k mod 10)] else [chr k]).
(** Prettify, lines 152-216, with maxDecimalPlaces = 324: nothing is cut off; below 10^-324 there is no double. *)
Definition prettify (ds : list Z) (k : Z) : list ascii :=
  let t := map chr ds in
  let kk := Z.of_nat (List.length ds) + k in
  if (0 <=? k) && (kk <=? 21) then t ++ zeros k ++ [".";"0"]
  else if (0 <? kk) && (kk <=? 21) then firstn (Z.to_nat kk) t ++ "." :: skipn (Z.to_nat kk) t
  else if (-6 <? kk) && (kk <=? 0) then "0" :: "." :: zeros (- kk) ++ t
  else if kk <? -324 then ["0"; "."; "0"]
  else match t with
  | [d] => d :: "e" :: write_exponent (kk - 1)
  | d :: r => d :: "." :: r ++ "e" :: write_exponent (kk - 1)
  | [] => []
  end.
(** dtoa, lines 218-239, of a finite double *)
Definition dtoa (b : Z) : list ascii :=
  (if sign_bit b then ["-"] else []) ++
  (if b mod 2 ^ 63 =? 0 then ["0"; "."; "0"] else let '(ds, k) := grisu2 (b mod 2 ^ 63) in prettify ds k).

(** GenericValue::Accept with a Writer (document.h:1778-1822): what is written, and the result.  WriteDouble (writer.h:315-343) gives up
    at infinities and NaN; then Accept returns at once.  IpcMessage::encode and the others do not look at the result. *)
Fixpoint emit (x : json) : list ascii * bool :=
  match x with
  | JDouble b => if finite b then (dtoa b, true) else ([], false)
  | JArr l =>
    let '(t, ok) := (fix items first l := match l with
      | [] => (["]"], true)
      | y :: r => let '(t, ok) := emit y in let t := (if first : bool then [] else [","]) ++ t in if ok : bool then let '(u, ok) := items false r in (t ++ u, ok) else (t, false)
      end) true l in ("[" :: t, ok)
  | JObj l =>
    let '(t, ok) := (fix members first l := match l with
      | [] => (["}"], true)
      | (n, y) :: r => let '(t, ok) := emit y in let t := (if first : bool then [] else [","]) ++ write_string n ++ ":" :: t in if ok : bool then let '(u, ok) := members false r in (t ++ u, ok) else (t, false)
      end) true l in ("{" :: t, ok)
  | _ => (write dtoa x, true)
  end.
(** IpcMessage::encode, IpcMessage.cpp:380-399: the text *)
Definition encode_text (c : clock) (m : msg) : outcome ipcexc (list ascii) := match encode c m with Ret d => Ret (fst (emit (JObj d))) | Throw e => Throw e | Undef => Undef end.
(** IpcMessage(const char*, bool), IpcMessage.cpp:48-111 *)
Definition msg_of_text (c : clock) (t : list ascii) (strict : bool) : outcome ipcexc msg := match parse t with Some x => msg_of_doc c x strict | None => Throw EIllegal end.
