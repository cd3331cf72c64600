(** Port lists and the names of receiver types.  frameReceiver/include/FrameReceiverConfig.h *)
From Coq Require Import String Ascii.
From Verif Require Import Base StrOrder FrameModel JsonModel LiveModel.
Local Open Scope string_scope.
Local Open Scope list_scope.
Local Open Scope Z_scope.

(** strtol(s, NULL, 0) of the C library with a 64 bit long, C locale: blanks, a sign, "0x" before a hexadecimal digit, "0" for octal. *)
Definition digit_of (c : ascii) : option Z :=
  let n := Z.of_nat (nat_of_ascii c) in
  if (48 <=? n) && (n <=? 57) then Some (n - 48) else if (97 <=? n) && (n <=? 122) then Some (n - 87) else if (65 <=? n) && (n <=? 90) then Some (n - 55) else None.
Fixpoint digits (base acc : Z) (s : string) : Z :=
  match s with
  | EmptyString => acc
  | String c r => match digit_of c with Some d => if d <? base then digits base (acc * base + d) r else acc | None => acc end
  end.
Definition is_hex (s : string) : bool := match s with String c _ => match digit_of c with Some d => d <? 16 | None => false end | _ => false end.
Definition unsigned_text (s : string) : Z :=
  match s with
  | String "0" (String c r) => if (Ascii.eqb c "x" || Ascii.eqb c "X") && is_hex r then digits 16 0 r else digits 8 0 (String c r)
  | _ => digits 10 0 s
  end.
Definition clamp (z : Z) : Z := Z.max (- 2 ^ 63) (Z.min (2 ^ 63 - 1) z).
Definition strtol0 (s : string) : Z :=
  match trim_left s with
  | String c r => clamp (if Ascii.eqb c "-" then - unsigned_text r else if Ascii.eqb c "+" then unsigned_text r else unsigned_text (String c r))
  | EmptyString => 0
  end.

(** tokenize_port_list, lines 75-94.  The loop over find takes the pieces between commas.  [port_str] points into a string that is already destroyed:
    [stale s] is what is read there instead of [s] (undefined in C++). *)
Definition tokenize_port_list (stale : string -> string) (s : string) : list Z :=
  filter (fun p => negb (p =? 0)) (map (fun t => strtol0 (stale t) mod 2 ^ 16) (split_on "," s)).

(** rx_port_list, lines 145-154: erase(length - 1) of an empty string throws std::out_of_range. *)
Definition rx_port_list (ports : list Z) : option string :=
  let s := fold_right (fun p r => append (decimal p) (append "," r)) "" ports in
  match s with EmptyString => None | _ => Some (substring 0 (String.length s - 1) s) end.

(** FrameReceiverDefaults.h:23-29; map_rx_name_to_type, lines 96-116; map_rx_type_to_name, lines 118-143 *)
Inductive rx_type := RxIllegal | RxUDP | RxZMQ | RxTCP.
Definition rx_type_of_name (n : string) : rx_type :=
  by_name RxIllegal [("udp", RxUDP); ("UDP", RxUDP); ("zmq", RxZMQ); ("ZMQ", RxZMQ); ("tcp", RxTCP); ("TCP", RxTCP)] n.
Definition rx_name_of_type (t : rx_type) : string := match t with RxUDP => "udp" | RxZMQ => "zmq" | RxTCP => "tcp" | RxIllegal => "unknown" end.
