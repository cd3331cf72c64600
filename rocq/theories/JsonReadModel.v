(** Documents from text: rapidjson's Document::Parse with its default flags, as used by IpcMessage.cpp:56 and FrameProcessorController.cpp:489.
    The library is vendored: common/include/rapidjson/reader.h, encodings.h, internal/strtod.h, internal/pow10.h. *)
From Coq Require Import String Ascii SpecFloat.
From Verif Require Import Base JsonModel.
Local Open Scope list_scope.
Local Open Scope char_scope.
Local Open Scope Z_scope.

(** ** Doubles.  IEEE 754 binary64, to nearest even, every operation rounded (SSE2; no contraction to fused operations). *)
Notation prec := 53%Z (only parsing).
Notation emax := 1024%Z (only parsing).
Notation double := spec_float (only parsing).
(** static_cast<double> of a nonnegative integer; also literals that are whole numbers *)
Definition dbl (z : Z) : double := binary_normalize prec emax z 0 false.
Definition dadd : double -> double -> double := SFadd prec emax.
Definition dmul : double -> double -> double := SFmul prec emax.
Definition ddiv : double -> double -> double := SFdiv prec emax.
(** The 64 bits *)
Definition bits_of (d : double) : Z :=
  match d with
  | S754_zero s => if s then 2 ^ 63 else 0
  | S754_infinity s => (if s then 2 ^ 63 else 0) + 2047 * 2 ^ 52
  | S754_nan => 2047 * 2 ^ 52 + 2 ^ 51
  | S754_finite s m e => (if s then 2 ^ 63 else 0) + (if (Z.pos m <? 2 ^ 52) then Z.pos m else (e + 1075) * 2 ^ 52 + (Z.pos m - 2 ^ 52))
  end.
(** Pow10, pow10.h:28-51: literals, to nearest.  [n] from 0 to 308. *)
Definition pow10 (n : Z) : double := dbl (10 ^ n).
(** FastPath, strtod.h:26-33 *)
Definition fast_path (d : double) (e : Z) : double := if e <? -308 then S754_zero false else if 0 <=? e then dmul d (pow10 e) else ddiv d (pow10 (- e)).
(** StrtodNormalPrecision, lines 35-44 *)
Definition strtod (d : double) (p : Z) : double := if p <? -308 then fast_path (fast_path d (-308)) (p + 308) else fast_path d p.
(** 1.7976931348623157e307 *)
Definition max_tenth : double := S754_finite false 7205759403792793 968.

(** ** Numbers *)
(** Consume, lines 741-749 *)
Definition consume (c : ascii) (s : list ascii) : option (list ascii) := match s with d :: r => if Ascii.eqb c d then Some r else None | [] => None end.
Definition code (c : ascii) : Z := Z.of_nat (nat_of_ascii c).
Definition digit (c : ascii) : option Z := if (48 <=? code c) && (code c <=? 57) then Some (code c - 48) else None.
(** The loops of reader.h:1165-1189 and 1216-1236: digits while the value stays below 10 * [lim] + [last] + 1.
    [n]: significandDigit; the last component: a digit was left because of the limit. *)
Fixpoint stage (lim last : Z) (s : list ascii) (i n : Z) : Z * Z * list ascii * bool :=
  match s with
  | c :: r => match digit c with
    | Some d => if (lim <=? i) && (negb (i =? lim) || (last <? d)) then (i, n, s, true) else stage lim last r (i * 10 + d) (n + 1)
    | None => (i, n, s, false)
    end
  | [] => (i, n, [], false)
  end.
(** Lines 1240-1246; [None]: kParseErrorNumberTooBig *)
Fixpoint big (d : double) (s : list ascii) : option (double * list ascii) :=
  match s with
  | c :: r => match digit c with Some k => if SFleb max_tenth d then None else big (dadd (dmul d (dbl 10)) (dbl k)) r | None => Some (d, s) end
  | [] => Some (d, [])
  end.
(** Lines 1263-1272 (RAPIDJSON_64BIT).  expFrac and significandDigit do not overflow: the text has fewer than 2^31 characters. *)
Fixpoint frac_int (i ef n : Z) (s : list ascii) : Z * Z * Z * list ascii :=
  match s with
  | c :: r => match digit c with
    | Some k => if 2 ^ 53 - 1 <? i then (i, ef, n, s) else let i' := i * 10 + k in frac_int i' (ef - 1) (if i' =? 0 then n else n + 1) r
    | None => (i, ef, n, s)
    end
  | [] => (i, ef, n, [])
  end.
(** Lines 1282-1291 *)
Fixpoint frac_dbl (d : double) (ef n : Z) (s : list ascii) : double * Z * list ascii :=
  match s with
  | c :: r => match digit c with
    | Some k => if n <? 17 then let d' := dadd (dmul d (dbl 10)) (dbl k) in frac_dbl d' (ef - 1) (if SFltb (S754_zero false) d' then n + 1 else n) r
                else frac_dbl d ef n r
    | None => (d, ef, s)
    end
  | [] => (d, ef, [])
  end.
Fixpoint skip_digits (s : list ascii) : list ascii := match s with c :: r => match digit c with Some _ => skip_digits r | None => s end | [] => [] end.
(** Lines 1314-1320 *)
Fixpoint exp_neg (e : Z) (s : list ascii) : Z * list ascii :=
  match s with
  | c :: r => match digit c with Some k => let e' := e * 10 + k in if 214748364 <=? e' then (e', skip_digits r) else exp_neg e' r | None => (e, s) end
  | [] => (e, [])
  end.
(** Lines 1321-1328 *)
Fixpoint exp_pos (limit e : Z) (s : list ascii) : option (Z * list ascii) :=
  match s with
  | c :: r => match digit c with Some k => let e' := e * 10 + k in if limit <? e' then None else exp_pos limit e' r | None => Some (e, s) end
  | [] => Some (e, [])
  end.
(** The value so far: i or i64 (with significandDigit), or a double *)
Inductive sofar := Whole (i n : Z) | Real (d : double) (n : Z).
(** Lines 1155-1247: the digits before the point *)
Definition int_part (minus : bool) (s : list ascii) : option (sofar * list ascii) :=
  match s with
  | c :: r =>
    match digit c with
    | Some 0 => Some (Whole 0 0, r)
    | Some k =>
      let '(i, n, r1, over) := if minus then stage 214748364 8 r k 0 else stage 429496729 5 r k 0 in
      if over then
        let '(i, n, r2, over) := if minus then stage 922337203685477580 8 r1 i n else stage 1844674407370955161 5 r1 i n in
        if over then match big (dbl i) r2 with Some (d, r3) => Some (Real d n, r3) | None => None end
        else Some (Whole i n, r2)
      else Some (Whole i n, r1)
    | None => None
    end
  | [] => None
  end.
(** Lines 1249-1294: the fraction.  The second component is expFrac. *)
Definition frac_part (v : sofar) (s : list ascii) : option (sofar * Z * list ascii) :=
  match consume "." s with
  | Some r =>
    match r with
    | c :: _ =>
      match digit c with
      | None => None
      | Some _ =>
        let '(d, ef, n, r1) := match v with Whole i n => let '(i, ef, n, r1) := frac_int i 0 n r in (dbl i, ef, n, r1) | Real d n => (d, 0, n, r) end in
        let '(d, ef, r2) := frac_dbl d ef n r1 in
        Some (Real d n, ef, r2)
      end
    | [] => None
    end
  | None => Some (v, 0, s)
  end.
(** Lines 1297-1336: the exponent *)
Definition exp_part (v : sofar) (ef : Z) (s : list ascii) : option (sofar * Z * list ascii) :=
  match s with
  | c :: r =>
    if (Ascii.eqb c "e" || Ascii.eqb c "E")%bool then
      let v := match v with Whole i n => Real (dbl i) n | _ => v end in
      let '(minus, r1) := match consume "+" r with Some r1 => (false, r1) | None => match consume "-" r with Some r1 => (true, r1) | None => (false, r) end end in
      match r1 with
      | c :: r2 =>
        match digit c with
        | None => None
        | Some k => if minus : bool then let '(e, r3) := exp_neg k r2 in Some (v, - e, r3)
                    else match exp_pos (308 - ef) k r2 with Some (e, r3) => Some (v, e, r3) | None => None end
        end
      | [] => None
      end
    else Some (v, 0, s)
  | [] => Some (v, 0, [])
  end.
(** ParseNumber, lines 1134-1393; the flags are off.  [None]: a parse error. *)
Definition parse_number (s : list ascii) : option (json * list ascii) :=
  let '(minus, s1) := match consume "-" s with Some r => (true, r) | None => (false, s) end in
  match int_part minus s1 with
  | None => None
  | Some (v, s2) =>
    match frac_part v s2 with
    | None => None
    | Some (v, ef, s3) =>
      match exp_part v ef s3 with
      | None => None
      | Some (Whole i _, _, s4) => Some (JInt (if minus : bool then - i else i), s4)
      | Some (Real d _, e, s4) => let d := strtod d (e + ef) in Some (JDouble (bits_of (if minus : bool then SFopp d else d)), s4)
      end
    end
  end.

(** ** Strings *)
(** ParseHex4, lines 751-774, one digit *)
Definition hex_value (c : ascii) : option Z :=
  let k := code c in
  if (48 <=? k) && (k <=? 57) then Some (k - 48) else if (65 <=? k) && (k <=? 70) then Some (k - 55) else if (97 <=? k) && (k <=? 102) then Some (k - 87) else None.
Definition hex4 (a b c d : ascii) : option Z :=
  match hex_value a, hex_value b, hex_value c, hex_value d with Some a, Some b, Some c, Some d => Some (((a * 16 + b) * 16 + c) * 16 + d) | _, _, _, _ => None end.
(** UTF8::Encode, encodings.h:101-124 *)
Definition byte (z : Z) : ascii := ascii_of_nat (Z.to_nat (z mod 256)).
Definition utf8 (cp : Z) : list ascii :=
  if cp <=? 127 then [byte cp]
  else if cp <=? 2047 then [byte (Z.lor 192 (Z.land (Z.shiftr cp 6) 255)); byte (Z.lor 128 (Z.land cp 63))]
  else if cp <=? 65535 then [byte (Z.lor 224 (Z.land (Z.shiftr cp 12) 255)); byte (Z.lor 128 (Z.land (Z.shiftr cp 6) 63)); byte (Z.lor 128 (Z.land cp 63))]
  else [byte (Z.lor 240 (Z.land (Z.shiftr cp 18) 255)); byte (Z.lor 128 (Z.land (Z.shiftr cp 12) 63)); byte (Z.lor 128 (Z.land (Z.shiftr cp 6) 63)); byte (Z.lor 128 (Z.land cp 63))].
(** The table of lines 843-849 *)
Definition escapes : list (ascii * ascii) :=
  [("""", """"); ("/", "/"); ("\", "\"); ("b", ascii_of_nat 8); ("f", ascii_of_nat 12); ("n", ascii_of_nat 10); ("r", ascii_of_nat 13); ("t", ascii_of_nat 9)].
Definition unescape (e : ascii) : option ascii := match List.find (fun p => Ascii.eqb (fst p) e) escapes with Some p => Some (snd p) | None => None end.
Definition prepend (l : list ascii) (o : option (list ascii * list ascii)) : option (list ascii * list ascii) := match o with Some (t, q) => Some (l ++ t, q) | None => None end.
(** ParseStringToStream, lines 840-906, after the opening quotation mark.  The end of the list is the terminating zero.
    [static_cast<unsigned>(c) < 0x20] with a signed char: bytes from 128 on pass. *)
Fixpoint parse_chars (s : list ascii) : option (list ascii * list ascii) :=
  match s with
  | [] => None
  | c :: r =>
    if Ascii.eqb c "\" then
      match r with
      | [] => None
      | e :: r =>
        match unescape e with
        | Some c => prepend [c] (parse_chars r)
        | None =>
          if Ascii.eqb e "u" then
            match r with
            | h1 :: h2 :: h3 :: h4 :: r =>
              match hex4 h1 h2 h3 h4 with
              | None => None
              | Some cp =>
                if (55296 <=? cp) && (cp <=? 56319) then
                  match r with
                  | b :: u :: k1 :: k2 :: k3 :: k4 :: r =>
                    if Ascii.eqb b "\" && Ascii.eqb u "u" then
                      match hex4 k1 k2 k3 k4 with
                      | None => None
                      | Some cp2 => if (cp2 <? 56320) || (57343 <? cp2) then None else prepend (utf8 (Z.lor (Z.shiftl (cp - 55296) 10) (cp2 - 56320) + 65536)) (parse_chars r)
                      end
                    else None
                  | _ => None
                  end
                else prepend (utf8 cp) (parse_chars r)
              end
            | _ => None
            end
          else None
        end
      end
    else if Ascii.eqb c """" then Some ([], r)
    else if code c <? 32 then None
    else prepend [c] (parse_chars r)
  end.
(** ParseString, lines 807-835, at the quotation mark *)
Definition parse_string (s : list ascii) : option (string * list ascii) :=
  match consume """" s with Some r => match parse_chars r with Some (t, q) => Some (string_of_list_ascii t, q) | None => None end | None => None end.

(** ** Values *)
(** SkipWhitespace, lines 263-271 *)
Definition white (c : ascii) : bool := let k := code c in (k =? 32) || (k =? 10) || (k =? 13) || (k =? 9).
Fixpoint skip (s : list ascii) : list ascii := match s with c :: r => if white c then skip r else s | [] => [] end.
(** ParseNull, ParseTrue, ParseFalse, lines 701-739, after the first character *)
Fixpoint expect (w : list ascii) (x : json) (s : list ascii) : option (json * list ascii) :=
  match w with [] => Some (x, s) | a :: w => match consume a s with Some s => expect w x s | None => None end end.
(** ParseValue, lines 1397-1410; ParseArray, lines 653-699: [items] starts at a value; ParseObject, lines 586-650: [members] starts at a
    name.  [n] bounds the calls; [parse] gives enough.  The machine's stack does not bound the depth (it is not checked by the library). *)
Fixpoint parse_value (n : nat) (s : list ascii) : option (json * list ascii) :=
  match n with
  | O => None
  | S n =>
    match s with
    | [] => None
    | c :: r =>
      if Ascii.eqb c "n" then expect ["u"; "l"; "l"] JNull r
      else if Ascii.eqb c "t" then expect ["r"; "u"; "e"] (JBool true) r
      else if Ascii.eqb c "f" then expect ["a"; "l"; "s"; "e"] (JBool false) r
      else if Ascii.eqb c """" then match parse_string s with Some (t, q) => Some (JStr t, q) | None => None end
      else if Ascii.eqb c "{" then
        match consume "}" (skip r) with
        | Some q => Some (JObj [], q)
        | None => match members n (skip r) with Some (l, q) => Some (JObj l, q) | None => None end
        end
      else if Ascii.eqb c "[" then
        match consume "]" (skip r) with
        | Some q => Some (JArr [], q)
        | None => match items n (skip r) with Some (l, q) => Some (JArr l, q) | None => None end
        end
      else parse_number s
    end
  end
with items (n : nat) (s : list ascii) : option (list json * list ascii) :=
  match n with
  | O => None
  | S n =>
    match parse_value n s with
    | None => None
    | Some (x, q) =>
      match consume "," (skip q) with
      | Some q => match items n (skip q) with Some (l, q) => Some (x :: l, q) | None => None end
      | None => match consume "]" (skip q) with Some q => Some ([x], q) | None => None end
      end
    end
  end
with members (n : nat) (s : list ascii) : option (list (string * json) * list ascii) :=
  match n with
  | O => None
  | S n =>
    match parse_string s with
    | None => None
    | Some (k, q) =>
      match consume ":" (skip q) with
      | None => None
      | Some q =>
        match parse_value n (skip q) with
        | None => None
        | Some (x, q) =>
          match consume "," (skip q) with
          | Some q => match members n (skip q) with Some (l, q) => Some ((k, x) :: l, q) | None => None end
          | None => match consume "}" (skip q) with Some q => Some ([(k, x)], q) | None => None end
          end
        end
      end
    end
  end.
(** The text up to the first zero *)
Fixpoint cut (s : list ascii) : list ascii := match s with c :: r => if Ascii.eqb c zero then [] else c :: cut r | [] => [] end.
(** Parse, lines 481-516, and Document::Parse, document.h:2216-2266.  [None]: HasParseError() *)
Definition parse (t : list ascii) : option json :=
  let s := skip (cut t) in
  match parse_value (S (2 * List.length s)) s with
  | Some (x, q) => match skip q with [] => Some x | _ => None end
  | None => None
  end.
