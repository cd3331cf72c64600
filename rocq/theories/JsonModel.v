(** Messages.  common/include/IpcMessage.h, common/src/IpcMessage.cpp.  Documents are values of rapidjson (a library); texts
    are in JsonTextModel, JsonReadModel and JsonDoubleModel. *)
From Coq Require Import String Ascii.
From Verif Require Import Base.
Local Open Scope string_scope.
Local Open Scope list_scope.

(** rapidjson::Value.  Integers from -2^63 to 2^64 - 1; a double by its bits, uninterpreted. *)
Inductive json := JNull | JBool (b : bool) | JInt (z : Z) | JDouble (bits : Z) | JStr (s : string) | JArr (l : list json) | JObj (l : list (string * json)).

(** IpcMessageException thrown by IpcMessage, the same thrown by RAPIDJSON_ASSERT (IpcMessage.h:63), std::out_of_range *)
Inductive ipcexc := EMissing | EAssert | ERange | EIllegal.

(** c_str() and strlen: up to the first zero *)
Fixpoint cstr (s : string) : string := match s with EmptyString => EmptyString | String c r => if Ascii.eqb c zero then EmptyString else String c (cstr r) end.
(** FindMember and operator[] of an object: the first member of that name *)
Fixpoint find_member (k : string) (l : list (string * json)) : option json := match l with [] => None | (n, v) :: r => if String.eqb n k then Some v else find_member k r end.
(** The member of that name becomes [v], or is added at the end. *)
Fixpoint put_member (k : string) (v : json) (l : list (string * json)) : list (string * json) :=
  match l with [] => [(k, v)] | (n, x) :: r => if String.eqb n k then (n, v) :: r else (n, x) :: put_member k v r end.

Inductive msg_type := TIllegal | TCmd | TAck | TNack | TNotify.
Inductive msg_val := VIllegal | VReset | VStatus | VConfigure | VRequestConfiguration | VExecute | VRequestCommands | VRequestVersion
| VBufferConfigRequest | VBufferPrechargeRequest | VResetStatistics | VShutdown
| VIdentity | VFrameReady | VFrameRelease | VBufferConfig | VBufferPrecharge | VNotifyStatus.

(** IpcMessage: strict_validation_, members of doc_, msg_type_, msg_val_, msg_id_ ([None]: indeterminate), msg_timestamp_ ([None]: not a date). *)
Record msg := Msg { g_strict : bool; g_doc : list (string * json); g_type : msg_type; g_val : msg_val; g_id : option Z; g_time : option Z }.
Definition with_doc d m := Msg (g_strict m) d (g_type m) (g_val m) (g_id m) (g_time m).

(** Constructors, IpcMessage.cpp:24-37 and 123-142 *)
Definition new_msg (t : msg_type) (v : msg_val) (strict : bool) (now : Z) : msg := Msg strict [("params", JObj [])] t v (Some 0%Z) (Some now).
Definition msg_of_value (x : json) (t : msg_type) (v : msg_val) (strict : bool) (now : Z) : msg := Msg strict [("params", x)] t v (Some 0%Z) (Some now).

(** The pieces between '/' characters: n of them give n + 1 pieces. *)
Fixpoint pieces (s : string) : list string :=
  match s with
  | EmptyString => [EmptyString]
  | String c r => if Ascii.eqb c "/" then EmptyString :: pieces r else match pieces r with p :: t => String c p :: t | [] => [String c EmptyString] end
  end.
(** The loop over getline, IpcMessage.h:220-224: an empty piece at the end is not seen. *)
Fixpoint drop_last_empty (l : list string) : list string := match l with [] => [] | [p] => if String.eqb p "" then [] else [p] | p :: r => p :: drop_last_empty r end.
Definition lines (s : string) : list string := drop_last_empty (pieces s).

(** get_param without conversion, IpcMessage.h:141-168.  The recursion at the first '/' runs over the pieces; each node is put into a
    new message as its params. *)
Fixpoint get_node (names : list string) (x : json) : outcome ipcexc json :=
  match names with
  | [] => Ret x
  | n :: r => match x with
    | JObj l => match find_member (cstr n) l with Some v => get_node r v | None => Throw EMissing end
    | _ => Throw EAssert
    end
  end.
Definition params_of (m : msg) : option json := find_member "params" (g_doc m).
Definition get_raw (m : msg) (name : string) : outcome ipcexc json := match params_of m with None => Throw EMissing | Some p => get_node (pieces name) p end.
(** get_param<const rapidjson::Value&>: below the first level the reference is into a message that was destroyed. *)
Definition get_ref (m : msg) (name : string) : outcome ipcexc json :=
  match get_raw m name with Ret v => match pieces name with [_] => Ret v | _ => Undef end | e => e end.

(** get_value, IpcMessage.cpp:726-778: the accessors of rapidjson check the type.  [RDoubleOf z]: the double next to z. *)
Inductive getter := GInt | GUint | GInt64 | GUint64 | GDouble | GBool | GStr.
Inductive result := RInt (z : Z) | RDouble (bits : Z) | RDoubleOf (z : Z) | RBool (b : bool) | RStr (s : string).
Definition in_range (lo hi z : Z) : outcome ipcexc result := if ((lo <=? z) && (z <? hi))%Z then Ret (RInt z) else Throw EAssert.
Definition get_value (g : getter) (x : json) : outcome ipcexc result :=
  match g, x with
  | GInt, JInt z => in_range (- 2 ^ 31) (2 ^ 31) z
  | GUint, JInt z => in_range 0 (2 ^ 32) z
  | GInt64, JInt z => in_range (- 2 ^ 63) (2 ^ 63) z
  | GUint64, JInt z => in_range 0 (2 ^ 64) z
  | GDouble, JDouble b => Ret (RDouble b)
  | GDouble, JInt z => Ret (RDoubleOf z)
  | GBool, JBool b => Ret (RBool b)
  | GStr, JStr s => Ret (RStr (cstr s))
  | _, _ => Throw EAssert
  end.
Definition get_param (g : getter) (m : msg) (name : string) : outcome ipcexc result := match get_raw m name with Ret v => get_value g v | Throw e => Throw e | Undef => Undef end.
(** get_param with a default, IpcMessage.h:180-196: the name is not split. *)
Definition get_param_or (g : getter) (m : msg) (name : string) (default : result) : outcome ipcexc result :=
  match params_of m with
  | None => Ret default
  | Some (JObj l) => match find_member (cstr name) l with Some v => get_value g v | None => Ret default end
  | Some _ => Throw EAssert
  end.

(** has_param, IpcMessage.cpp:212-250 *)
Fixpoint has_node (names : list string) (x : json) : outcome ipcexc bool :=
  match names with
  | [] => Ret true
  | n :: r => match x with
    | JObj l => match find_member (cstr n) l with Some v => has_node r v | None => Ret false end
    | _ => Throw EAssert
    end
  end.
Definition has_param (m : msg) (name : string) : outcome ipcexc bool := match params_of m with None => Ret false | Some p => has_node (pieces name) p end.

(** get_param_names, lines 192-202.  FindMember's end is dereferenced without params. *)
Definition get_param_names (m : msg) : outcome ipcexc (list string) :=
  match params_of m with None => Undef | Some (JObj l) => Ret (map (fun e => cstr (fst e)) l) | Some _ => Throw EAssert end.

(** set_value, lines 783-885 *)
Inductive value := XInt (z : Z) | XUint (z : Z) | XInt64 (z : Z) | XUint64 (z : Z) | XDouble (bits : Z) | XBool (b : bool) | XStr (s : string) | XJson (x : json).
Definition set_value (v : value) : json := match v with XInt z | XUint z | XInt64 z | XUint64 z => JInt z | XDouble b => JDouble b | XBool b => JBool b | XStr s => JStr (cstr s) | XJson x => x end.

Fixpoint drop (n : nat) (s : string) : string := match n, s with O, _ => s | S k, String _ r => drop k r | S _, EmptyString => EmptyString end.
(** compare(length() - 2, 2, "[]") == 0: length() - 2 is beyond the end for shorter strings, std::out_of_range *)
Definition ends_array (s : string) : outcome ipcexc bool := if Nat.ltb (String.length s) 2 then Throw ERange else Ret (String.eqb (drop (String.length s - 2) s) "[]").
(** substr(0, size() - 2): all of a shorter string *)
Definition cut_array (s : string) : string := if Nat.ltb (String.length s) 2 then s else substring 0 (String.length s - 2) s.

(** set_param, the loop and the end, IpcMessage.h:247-279.  [back]: the last of the names, [x]: *next.  The result holds the new *next. *)
Fixpoint set_rest (back : string) (names : list string) (found : bool) (v x : json) : json * outcome ipcexc unit :=
  match names with
  | [] => (if found then match x with JArr l => JArr (l ++ [v]) | _ => JArr [v] end else v, Ret tt)
  | n :: r =>
    match (if String.eqb n back then ends_array n else Ret false) with
    | Throw e => (x, Throw e)
    | Undef => (x, Undef)
    | Ret b =>
      let found := found || b in
      let index := cstr (if found then cut_array n else n) in
      match x with
      | JObj l =>
        let y := match find_member index l with Some y => y | None => JObj [] end in
        let '(y', o) := set_rest back r found v y in (JObj (put_member index y' l), o)
      | _ => (x, Throw EAssert)
      end
    end
  end.
(** set_param, IpcMessage.h:215-246, and internal_set_param, lines 339-367.  Memory is not short.  The value is not part of the same
    message (aliasing is not modelled). *)
Definition set_param (m : msg) (name : string) (v : value) : msg * outcome ipcexc unit :=
  match lines name with
  | [] => (m, Undef)                                                          (* names[0] *)
  | tl :: names =>
    match ends_array tl with
    | Throw e => (m, Throw e)
    | Undef => (m, Undef)
    | Ret found =>
      let tl' := cstr (if found then cut_array tl else tl) in
      let p := match params_of m with Some p => p | None => JObj [] end in
      match p with
      | JObj l =>
        let x := match find_member tl' l with Some x => x | None => JObj [] end in
        let '(x', o) := set_rest (last names "") names found (set_value v) x in
        (with_doc (put_member "params" (JObj (put_member tl' x' l)) (g_doc m)) m, o)
      | _ => (m, Throw EAssert)
      end
    end
  end.

(** update with another message, IpcMessage.cpp:150-156 *)
Fixpoint update_names (m other : msg) (names : list string) : msg * outcome ipcexc unit :=
  match names with
  | [] => (m, Ret tt)
  | n :: r =>
    match get_ref other n with
    | Throw e => (m, Throw e)
    | Undef => (m, Undef)
    | Ret v => match set_param m n (XJson v) with (m1, Ret _) => update_names m1 other r | e => e end
    end
  end.
Definition update_msg (m other : msg) : msg * outcome ipcexc unit :=
  match get_param_names other with Ret names => update_names m other names | Throw e => (m, Throw e) | Undef => (m, Undef) end.

(** update with a value, IpcMessage.cpp:166-186 *)
Fixpoint update_value (x : json) (prefix : string) (m : msg) {struct x} : msg * outcome ipcexc unit :=
  match x with
  | JObj l =>
    (fix each (l : list (string * json)) (m : msg) {struct l} : msg * outcome ipcexc unit :=
      match l with
      | [] => (m, Ret tt)
      | (n, y) :: r =>
        let path := if String.eqb prefix "" then cstr n else append prefix (append "/" (cstr n)) in
        match update_value y path m with (m1, Ret _) => each r m1 | e => e end
      end) l m
  | _ => set_param m prefix (XJson x)
  end.

(** Names of types and values, IpcMessage.cpp:537-543 and 599-618 *)
Definition type_names : list (string * msg_type) := [("cmd", TCmd); ("ack", TAck); ("nack", TNack); ("notify", TNotify)].
Definition val_names : list (string * msg_val) :=
  [("reset", VReset); ("status", VStatus); ("configure", VConfigure); ("request_configuration", VRequestConfiguration); ("execute", VExecute);
   ("request_commands", VRequestCommands); ("request_version", VRequestVersion); ("request_buffer_config", VBufferConfigRequest);
   ("request_buffer_precharge", VBufferPrechargeRequest); ("reset_statistics", VResetStatistics); ("shutdown", VShutdown); ("identity", VIdentity);
   ("frame_ready", VFrameReady); ("frame_release", VFrameRelease); ("buffer_config", VBufferConfig); ("buffer_precharge", VBufferPrecharge); ("notify_status", VNotifyStatus)].
Definition msg_type_eqb (a b : msg_type) : bool := match a, b with TIllegal, TIllegal | TCmd, TCmd | TAck, TAck | TNack, TNack | TNotify, TNotify => true | _, _ => false end.
Definition val_index (v : msg_val) : nat :=
  match v with VIllegal => 0 | VReset => 1 | VStatus => 2 | VConfigure => 3 | VRequestConfiguration => 4 | VExecute => 5 | VRequestCommands => 6 | VRequestVersion => 7
  | VBufferConfigRequest => 8 | VBufferPrechargeRequest => 9 | VResetStatistics => 10 | VShutdown => 11 | VIdentity => 12 | VFrameReady => 13 | VFrameRelease => 14
  | VBufferConfig => 15 | VBufferPrecharge => 16 | VNotifyStatus => 17 end.
Definition by_name {A} (d : A) (l : list (string * A)) (n : string) : A := match List.find (fun e => String.eqb (fst e) n) l with Some e => snd e | None => d end.
(** valid_msg_type, lines 552-589; valid_msg_val, lines 628-664.  The bimap of static storage is filled at the first use (not protected). *)
Definition type_of_name : string -> msg_type := by_name TIllegal type_names.
Definition name_of_type (t : msg_type) : string := match List.find (fun e => msg_type_eqb (snd e) t) type_names with Some e => fst e | None => "illegal" end.
Definition val_of_name : string -> msg_val := by_name VIllegal val_names.
Definition name_of_val (v : msg_val) : string := match List.find (fun e => Nat.eqb (val_index (snd e)) (val_index v)) val_names with Some e => fst e | None => "illegal" end.

(** Text of times: to_iso_extended_string and parse_delimited_time of boost. *)
Record clock := Clock { time_text : option Z -> string; time_parse : string -> option Z }.

(** get_attribute with a default, IpcMessage.h:400-404 *)
Definition get_attr {A} (f : json -> outcome ipcexc A) (doc : list (string * json)) (n : string) (d : A) : outcome ipcexc A := match find_member n doc with None => Ret d | Some x => f x end.
Definition str_value (x : json) : outcome ipcexc string := match x with JStr s => Ret (cstr s) | _ => Throw EAssert end.
Definition uint_value (x : json) : outcome ipcexc Z := match get_value GUint x with Ret (RInt z) => Ret z | _ => Throw EAssert end.
Definition has_params (doc : list (string * json)) : bool := match find_member "params" doc with Some (JObj _) => true | _ => false end.
Definition bind {A B} (o : outcome ipcexc A) (f : A -> outcome ipcexc B) : outcome ipcexc B := match o with Ret a => f a | Throw e => Throw e | Undef => Undef end.
(** Constructor from text, IpcMessage.cpp:48-111, after the parser.  [x]: the document. *)
Definition msg_of_doc (c : clock) (x : json) (strict : bool) : outcome ipcexc msg :=
  match x with
  | JObj doc =>
    bind (get_attr str_value doc "msg_type" "none") (fun tn => let t := type_of_name tn in
    if strict && msg_type_eqb t TIllegal then Throw EIllegal else
    bind (get_attr str_value doc "msg_val" "none") (fun vn => let v := val_of_name vn in
    if strict && Nat.eqb (val_index v) 0 then Throw EIllegal else
    bind (get_attr str_value doc "timestamp" "none") (fun tx => let time := time_parse c tx in
    if strict && match time with None => true | _ => false end then Throw EIllegal else
    match get_attr uint_value doc "id" 0%Z with
    | Ret id => if strict && negb (has_params doc) then Throw EIllegal else Ret (Msg strict doc t v (Some id) time)
    | _ => if strict then Throw EIllegal else Ret (Msg strict doc t v None time)
    end)))
  | _ => Throw EAssert
  end.
(** encode, lines 380-399: the document that is written.  Reading an indeterminate id is undefined. *)
Definition encode (c : clock) (m : msg) : outcome ipcexc (list (string * json)) :=
  match g_id m with
  | None => Undef
  | Some id =>
    Ret (put_member "timestamp" (JStr (cstr (time_text c (g_time m)))) (put_member "id" (JInt id) (put_member "msg_val" (JStr (name_of_val (g_val m))) (put_member "msg_type" (JStr (name_of_type (g_type m))) (g_doc m)))))
  end.
(** set_nack, lines 260-264 *)
Definition set_nack (m : msg) (reason : string) : msg * outcome ipcexc unit := set_param (Msg (g_strict m) (g_doc m) TNack (g_val m) (g_id m) (g_time m)) "error" (XStr reason).
(** is_valid, lines 273-279 *)
Definition is_valid (m : msg) : bool := negb (msg_type_eqb (g_type m) TIllegal) && negb (Nat.eqb (val_index (g_val m)) 0) && match g_time m with None => false | _ => true end && has_params (g_doc m).
