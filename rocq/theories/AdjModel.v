(** Plugins that add to the meta data.  frameProcessor/src/SumPlugin.cpp, OffsetAdjustmentPlugin.cpp, ParameterAdjustmentPlugin.cpp *)
From Coq Require Import String.
From Verif Require Import Base StrOrder FrameModel JsonModel.
Local Open Scope string_scope.
Local Open Scope list_scope.

(** An unsigned integer of [n] bytes, least significant first (the byte order of the machines supported) *)
Fixpoint little_endian (l : list Z) : Z := match l with [] => 0 | b :: r => b + 256 * little_endian r end%Z.
(** calculate_sum, SumPlugin.cpp:28-41, over [n] elements of [es] bytes *)
Fixpoint sum_pixels (es n : nat) (l : list Z) (acc : Z) : Z := match n with O => acc | S k => sum_pixels es k (skipn es l) ((acc + little_endian (firstn es l)) mod 2 ^ 64)%Z end.
(** get_image_size() is an int, converted to size_t before the division.  Alignment of the image is not modelled. *)
Definition calculate_sum (es : Z) (f : frame) : outcome fexc Z :=
  let n := (fr_image_size f mod 2 ^ 64 / es)%Z in
  match read_image f 0 (n * es) with Ret l => Ret (sum_pixels (Z.to_nat es) (Z.to_nat n) l 0) | Throw e => Throw e | Undef => Undef end.
(** process_frame, lines 48-69 *)
Definition sum_process (f : frame) : outcome fexc (list frame) :=
  let t := md_type (fr_meta f) in
  let with_sum es := obind (calculate_sum es f) (fun v => push (with_meta (set_parameter "sum" (AU64 v) (fr_meta f)) f)) in
  if Z.eqb t raw_8bit then with_sum 1%Z else if Z.eqb t raw_16bit then with_sum 2%Z else if Z.eqb t raw_32bit then with_sum 4%Z else if Z.eqb t raw_64bit then with_sum 8%Z else push f.

(** OffsetAdjustmentPlugin process_frame, lines 41-45; adjust_frame_offset adds int64_t *)
Definition offset_process (adj : Z) (f : frame) : outcome fexc (list frame) :=
  let o := (md_offset (fr_meta f) + adj)%Z in if in_i64 o then push (with_meta (set_offset o (fr_meta f)) f) else Undef.

(** ParameterAdjustmentPlugin: parameter_adjustments_, parameter_inputs_; the errors set by process_frame *)
Record adj := Adj { ad_adjustments : smap Z; ad_inputs : smap string }.
Inductive aerr := NoInput (input : string) | NotSet (param : string).
(** The body of the loop, lines 45-77 *)
Definition adjust_one (a : adj) (number : Z) (e : string * Z) (m : meta) : outcome fexc (meta * list aerr) :=
  let '(p, v) := e in
  match sm_get (ad_inputs a) p with
  | None | Some "" => let s := (number + v)%Z in if in_i64 s then Ret (set_parameter p (AU64 (s mod 2 ^ 64)) m, []) else Undef
  | Some i =>
    if has_parameter i m then
      match get_parameter_u64 i m with
      | Ret x => Ret (set_parameter p (AU64 ((x + v) mod 2 ^ 64)) m, [])
      | _ => Ret (m, [NotSet p])
      end
    else Ret (m, [NoInput i])
  end.
Fixpoint adjust_all (a : adj) (number : Z) (l : list (string * Z)) (m : meta) : outcome fexc (meta * list aerr) :=
  match l with
  | [] => Ret (m, [])
  | e :: r => obind (adjust_one a number e m) (fun '(m1, er) => obind (adjust_all a number r m1) (fun '(m2, er2) => Ret (m2, er ++ er2)))
  end.
(** process_frame, lines 38-80 *)
Definition adjust_process (a : adj) (f : frame) : outcome fexc (list frame * list aerr) :=
  obind (adjust_all a (md_number (fr_meta f)) (ad_adjustments a) (fr_meta f)) (fun '(m, er) => obind (push (with_meta m f)) (fun out => Ret (out, er))).

(** configure, lines 91-136.  The messages made from values have the default type and value; only their parameters are used. *)
Definition sub_msg (x : json) : msg := msg_of_value x TIllegal VIllegal false 0.
Fixpoint configure_names (c : msg) (names : list string) (a : adj) : adj * outcome ipcexc unit :=
  match names with
  | [] => (a, Ret tt)
  | n :: r =>
    match get_ref c n with
    | Throw e => (a, Throw e) | Undef => (a, Undef)
    | Ret x =>
      let p := sub_msg x in
      match get_param GInt64 p "adjustment" with
      | Ret (RInt v) =>
        let a1 := Adj (sm_put (ad_adjustments a) n v) (ad_inputs a) in
        match has_param p "input" with
        | Ret true => match get_param GStr p "input" with
          | Ret (RStr i) => configure_names c r (Adj (ad_adjustments a1) (sm_put (ad_inputs a1) n i))
          | Throw e => (a1, Throw e) | _ => (a1, Undef) end
        | Ret false => configure_names c r (Adj (ad_adjustments a1) (sm_put (ad_inputs a1) n ""))
        | Throw e => (a1, Throw e) | Undef => (a1, Undef)
        end
      | Throw e => (a, Throw e) | _ => (a, Undef)
      end
    end
  end.
Definition adjust_configure (config : msg) (a : adj) : adj * outcome ipcexc unit :=
  match has_param config "parameter" with
  | Ret true =>
    match get_ref config "parameter" with
    | Ret x => let c := sub_msg x in
      match get_param_names c with
      | Ret [] => (Adj [] [], Ret tt)
      | Ret names => configure_names c names a
      | Throw e => (a, Throw e) | Undef => (a, Undef) end
    | Throw e => (a, Throw e) | Undef => (a, Undef)
    end
  | Ret false => (a, Ret tt)
  | Throw e => (a, Throw e) | Undef => (a, Undef)
  end.
