(** The live view.  frameProcessor/src/LiveViewPlugin.cpp *)
From Coq Require Import String Ascii DecimalString.
From Verif Require Import Base StrOrder FrameModel JsonModel.
Local Open Scope string_scope.
Local Open Scope list_scope.

(** boost::split at one character: n of them give n + 1 pieces; boost::trim of white space of the C locale *)
Fixpoint split_on (d : ascii) (s : string) : list string :=
  match s with
  | EmptyString => [EmptyString]
  | String c r => if Ascii.eqb c d then EmptyString :: split_on d r else match split_on d r with p :: t => String c p :: t | [] => [String c EmptyString] end
  end.
Definition blank (c : ascii) : bool := let n := nat_of_ascii c in Nat.eqb n 32 || (Nat.leb 9 n && Nat.leb n 13).
Fixpoint trim_left (s : string) : string := match s with EmptyString => EmptyString | String c r => if blank c then trim_left r else s end.
Fixpoint trim_right (s : string) : string := match s with EmptyString => EmptyString | String c r => match trim_right r with EmptyString => if blank c then EmptyString else String c EmptyString | t => String c t end end.
Definition trim (s : string) : string := trim_left (trim_right s).

(** The members of LiveViewPlugin, LiveViewPlugin.h:79-104.  Times in microseconds.  [lv_endpoints]: bound_endpoints_ of the socket. *)
Record live := Live { lv_bound : bool; lv_addr : string; lv_endpoints : smap unit; lv_freq : Z; lv_per_second : Z; lv_between : Z; lv_last : Z; lv_datasets : smap Z; lv_tags : list string }.
Definition with_count d n (p : live) := Live (lv_bound p) (lv_addr p) (lv_endpoints p) (lv_freq p) (lv_per_second p) (lv_between p) (lv_last p) (sm_put (lv_datasets p) d n) (lv_tags p).
Definition with_last t (p : live) := Live (lv_bound p) (lv_addr p) (lv_endpoints p) (lv_freq p) (lv_per_second p) (lv_between p) t (lv_datasets p) (lv_tags p).

(** What is sent: the header as a document (its text is made by rapidjson), then the bytes of the image. *)
Record packet := Packet { pk_header : list (string * json); pk_bytes : list Z }.
(** boost::to_string of a number *)
Definition decimal (z : Z) : string := NilZero.string_of_uint (N.to_uint (Z.to_N z)).
(** pass_live_frame, lines 223-296.  frame_num is a uint32_t; the image size goes from int to size_t, and for the header to uint32_t (the
    only integral overload of add_json_member). *)
Definition live_packet (p : live) (f : frame) : outcome fexc packet :=
  let m := fr_meta f in
  let size := (fr_image_size f mod 2 ^ 64)%Z in
  let header :=
    [("frame_num", JInt (md_number m mod 2 ^ 32)); ("acquisition_id", JStr (cstr (md_acq m))); ("dtype", JStr (get_type_from_enum (md_type m)));
     ("dsize", JInt (size mod 2 ^ 32)); ("dataset", JStr (cstr (md_dataset m))); ("compression", JStr (get_compress_from_enum (md_compr m)))]
    ++ match lv_tags p with [] => [] | _ => [("tags", JArr (map (fun t => JStr (cstr t)) (filter (fun t => has_parameter t m) (lv_tags p))))] end
    ++ [("shape", JArr (map (fun d => JStr (decimal d)) (md_dims m)))] in
  match read_image f 0 size with Ret b => Ret (Packet header b) | Throw e => Throw e | Undef => Undef end.

(** process_frame, lines 60-143.  [count]: the static frame_count_, shared by all live views of the process.  [t1]: the clock at the test,
    [t2]: the clock after sending.  The result: frame_count_, the plugin, what was sent, what was pushed. *)
Definition live_process (count : Z) (p : live) (f : frame) (t1 t2 : Z) : outcome fexc (Z * live * option packet * list frame) :=
  let ds := md_dataset (fr_meta f) in
  let tagged := match lv_tags p with [] => true | _ => existsb (fun t => has_parameter t (fr_meta f)) (lv_tags p) end in
  let found := sm_get (lv_datasets p) ds in
  let wanted := match lv_datasets p, found with [], _ => true | _, Some _ => true | _, None => false end in
  let forward c q s := obind (push f) (fun out => Ret (c, q, s, out)) in
  if lv_bound p && wanted && tagged then
    let due := negb (lv_per_second p =? 0)%Z && (lv_between p <? t1 - lv_last p)%Z in
    let counted : outcome fexc (Z * Z * live) := match found with
      | Some n => if in_i32 (n + 1) then Ret (n, count, with_count ds (n + 1)%Z p) else Undef
      | None => Ret (i32 count, ((count + 1) mod 2 ^ 32)%Z, p)
      end in
    obind counted (fun '(n, c, q) =>
      if (lv_freq p =? -1)%Z && (n =? - 2 ^ 31)%Z then Undef
      else if due || (negb (lv_freq p =? 0)%Z && (Z.rem n (lv_freq p) =? 0)%Z)
      then obind (live_packet p f) (fun k => forward c (with_last t2 q) (Some k))
      else forward c q None)
  else forward count p None.

(** set_frame_freq_config, lines 371-382; set_per_second_config, lines 352-365; set_dataset_name_config, lines 423-448;
    set_tagged_filter_config, lines 450-464 *)
Definition set_freq v (p : live) := Live (lv_bound p) (lv_addr p) (lv_endpoints p) v (lv_per_second p) (lv_between p) (lv_last p) (lv_datasets p) (lv_tags p).
Definition set_per_second v (p : live) := Live (lv_bound p) (lv_addr p) (lv_endpoints p) (lv_freq p) v (if (v =? 0)%Z then lv_between p else 1000 * Z.quot 1000 v)%Z (lv_last p) (lv_datasets p) (lv_tags p).
Definition put_new {A} (m : smap A) (k : string) (v : A) : smap A := match sm_get m k with Some _ => m | None => sm_put m k v end.
Definition set_datasets v (p : live) := Live (lv_bound p) (lv_addr p) (lv_endpoints p) (lv_freq p) (lv_per_second p) (lv_between p) (lv_last p)
  (if String.eqb v "" then [] else fold_left (fun m n => put_new m (trim n) 0%Z) (split_on "," v) []) (lv_tags p).
Definition set_tags v (p : live) := Live (lv_bound p) (lv_addr p) (lv_endpoints p) (lv_freq p) (lv_per_second p) (lv_between p) (lv_last p) (lv_datasets p)
  (if String.eqb v "" then [] else map trim (split_on "," v)).
(** set_socket_addr_config, lines 388-416, with bind, unbind and has_bound_endpoint of IpcChannel.cpp:113-177.  zmq::error_t is caught. *)
Record zmq := Zmq { zmq_bind : string -> bool; zmq_unbind : string -> bool }.
Definition set_socket (z : zmq) v (p : live) :=
  match sm_get (lv_endpoints p) v with
  | Some _ => p
  | None =>
    let has := match sm_get (lv_endpoints p) (lv_addr p) with Some _ => true | None => false end in
    if has && negb (zmq_unbind z (lv_addr p)) then p
    else
      let e := if has then sm_del (lv_endpoints p) (lv_addr p) else lv_endpoints p in
      let ok := zmq_bind z v in
      Live ok v (if ok then sm_put e v tt else e) (lv_freq p) (lv_per_second p) (lv_between p) (lv_last p) (lv_datasets p) (lv_tags p)
  end.

(** The constructor, lines 31-43; [min]: the earliest date of boost *)
Definition new_live (min : Z) : live := set_tags "" (set_datasets "" (set_per_second 0%Z (set_freq 1%Z (Live false "" [] 0 0 0 min [] [])))).

(** configure, lines 154-200: each setting if the message has it *)
Definition if_has {S} (c : msg) (name : string) (g : getter) (set : result -> S -> S) (st : S * outcome ipcexc unit) : S * outcome ipcexc unit :=
  match st with
  | (p, Ret _) =>
    match has_param c name with
    | Ret true => match get_param g c name with Ret r => (set r p, Ret tt) | Throw e => (p, Throw e) | Undef => (p, Undef) end
    | Ret false => (p, Ret tt)
    | Throw e => (p, Throw e)
    | Undef => (p, Undef)
    end
  | e => e
  end.
Definition num (r : result) : Z := match r with RInt z => z | _ => 0%Z end.
Definition str (r : result) : string := match r with RStr s => s | _ => "" end.
Definition default_addr : string := "tcp://127.0.0.1:5020".
Definition live_configure (z : zmq) (c : msg) (p : live) : live * outcome ipcexc unit :=
  let st := if_has c "filter_tagged" GStr (fun r => set_tags (str r)) (if_has c "dataset_name" GStr (fun r => set_datasets (str r))
    (if_has c "per_second" GInt (fun r => set_per_second (num r)) (if_has c "frame_frequency" GInt (fun r => set_freq (num r)) (p, Ret tt)))) in
  match st with
  | (p1, Ret _) =>
    match has_param c "live_view_socket_addr" with
    | Ret true => match get_param GStr c "live_view_socket_addr" with Ret r => (set_socket z (str r) p1, Ret tt) | Throw e => (p1, Throw e) | Undef => (p1, Undef) end
    | Ret false => (if lv_bound p1 then p1 else set_socket z default_addr p1, Ret tt)
    | Throw e => (p1, Throw e)
    | Undef => (p1, Undef)
    end
  | e => e
  end.

(** Frames one after the other through one live view: for each the frame, the clocks, what was sent and what was pushed *)
Definition event := (frame * Z * Z)%type.
Fixpoint live_run (count : Z) (p : live) (l : list event) : outcome fexc (Z * live * list (event * option packet * list frame)) :=
  match l with
  | [] => Ret (count, p, [])
  | (f, t1, t2) :: r => obind (live_process count p f t1 t2) (fun '(c, q, s, out) => obind (live_run c q r) (fun '(c', q', log) => Ret (c', q', (f, t1, t2, s, out) :: log)))
  end.
