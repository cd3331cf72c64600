(** Meta data from the file writer to a subscriber.  common/include/Json.h, common/src/Json.cpp, frameProcessor/src/MetaMessage.cpp,
    frameProcessor/src/MetaMessagePublisher.cpp, frameProcessor/src/Acquisition.cpp (the messages); what the controller makes of a message is
    handleMetaRxChannel of [PrcModel].  Little endian machine, size_t of 64 bits. *)
From Coq Require Import String Ascii.
From Verif Require Import Base PlaceModel NameModel AcqModel JsonModel JsonReadModel JsonDoubleModel PrcModel.
Local Open Scope string_scope.
Local Open Scope list_scope.

(** ** JsonDict *)
Definition dict := list (string * json).
(** Json.cpp:26-30: the key is taken as a C string; AddMember appends. *)
Definition key (k : string) : string := string_of_list_ascii (cut (list_ascii_of_string k)).
Definition add (k : string) (v : json) (d : dict) : dict := d ++ [(key k, v)].
(** Json.h:29-33 with T = size_t or unsigned int; Json.cpp:32-36, with the length of the string *)
Definition add_n (k : string) (v : N) : dict -> dict := add k (JInt (Z.of_N v)).
Definition add_s (k : string) (v : string) : dict -> dict := add k (JStr v).
(** Json.cpp:42-52: a C string again *)
Definition str (d : dict) : list ascii := cut (fst (JsonDoubleModel.emit (JObj d))).

(** ** MetaMessagePublisher.cpp:33-85: the message; MetaMessage.cpp:12-28 copies the bytes *)
Fixpoint le (n : nat) (z : Z) : list Z := match n with O => [] | S n => (z mod 256)%Z :: le n (z / 256)%Z end.
Definition octets (t : list ascii) : list Z := map (fun c => Z.of_nat (nat_of_ascii c)) t.
Definition text (t : list ascii) : string := string_of_list_ascii t.
Inductive value := VInt (z : Z) | VUint (z : Z) | VDouble (bits : Z) | VText (t : list ascii) | VRaw (b : list Z).
Definition message (name item : string) (v : value) (header : string) : meta :=
  match v with
  | VInt z => Meta name item "integer" header (le 4 z)
  | VUint z => Meta name item "uint64" header (le 8 z)
  | VDouble b => Meta name item "double" header (le 8 b)
  | VText t => Meta name item "string" header (octets t)
  | VRaw b => Meta name item "raw" header b
  end.

(** ** The messages of an acquisition, Acquisition.cpp:19-38 for the names *)
(** Acquisition.cpp:618-625, 631-637 *)
Definition create_header (a : acq) : string :=
  text (str (add_n "totalFrames" (a_total a) (add_n "rank" (g_rank (a_geom a)) (add_s "acqID" (n_acqid (a_naming a)) [])))).
Definition header (a : acq) : string := text (str (add_n "rank" (g_rank (a_geom a)) (add_s "acqID" (n_acqid (a_naming a)) []))).
(** An event with the two durations it may tell: lines 390, 228-231, 139-146, 296-299, 403.  An empty string is the string overload. *)
Record note := Note { o_event : ev; o_one : N; o_two : N }.
Definition acq_message (a : acq) (n : note) : meta :=
  match o_event n with
  | EvStart => message "Acquisition" "startacquisition" (VText []) (create_header a)
  | EvCreate p => message "Acquisition" "createfile" (VText (str (add_n "create_duration" (o_one n) (add_s "filePath" p [])))) (create_header a)
  | EvWrite f off =>
    message "Acquisition" "writeframe"
      (VText (str (add_n "flush_duration" (o_two n) (add_n "write_duration" (o_one n) (add_n "proc" (g_procs (a_geom a)) (add_n "offset" off (add_n "frame" f []))))))) (header a)
  | EvClose p => message "Acquisition" "closefile" (VText (str (add_n "close_duration" (o_one n) (add_s "filePath" p [])))) (header a)
  | EvStop => message "Acquisition" "stopacquisition" (VText []) (header a)
  end.

(** ** The channels.  MetaMessagePublisher.cpp:35-40: the message is made with new, its address is sent on a PUSH socket with ZMQ_DONTWAIT; what send returns is not
    looked at.  FrameProcessorController.cpp:203-251: the PULL socket receives from one of the publishers that have something, any of them; the message is published and
    deleted.  [cap]: what a pipe holds. *)
Inductive bevent := BSent (p : nat) (x : meta) | BLost (p : nat) (x : meta) | BGot (p : nat) (x : meta).
Definition published (x : meta) : list ascii * list Z := (cut (fst (JsonDoubleModel.emit (meta_doc x))), t_data x).
Record bus := Bus { b_next : nat; b_heap : nat -> option meta; b_pipe : nat -> list nat; b_out : list (list ascii * list Z); b_undef : bool; b_log : list bevent }.
Definition bus_init : bus := Bus 0 (fun _ => None) (fun _ => []) [] false [].
Definition put {A} (f : nat -> A) (k : nat) (v : A) : nat -> A := fun j => if Nat.eqb j k then v else f j.
Inductive blab := Publish (p : nat) (x : meta) | Handle (p : nat).
Definition bus_step (cap : nat) (a : blab) (s : bus) : option bus :=
  match a with
  | Publish p x =>
    let id := b_next s in let h := put (b_heap s) id (Some x) in
    if Nat.ltb (List.length (b_pipe s p)) cap then Some (Bus (S id) h (put (b_pipe s) p (b_pipe s p ++ [id])) (b_out s) (b_undef s) (b_log s ++ [BSent p x]))
    else Some (Bus (S id) h (b_pipe s) (b_out s) (b_undef s) (b_log s ++ [BLost p x]))
  | Handle p =>
    match b_pipe s p with
    | [] => None
    | id :: q =>
      match b_heap s id with
      | Some x => Some (Bus (b_next s) (put (b_heap s) id None) (put (b_pipe s) p q) (b_out s ++ [published x]) (b_undef s) (b_log s ++ [BGot p x]))
      | None => Some (Bus (b_next s) (b_heap s) (put (b_pipe s) p q) (b_out s) true (b_log s))
      end
    end
  end.
Fixpoint bus_go (cap : nat) (l : list blab) (s : bus) : option bus := match l with [] => Some s | a :: r => match bus_step cap a s with Some t => bus_go cap r t | None => None end end.
