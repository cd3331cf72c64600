(** The dummy UDP frame decoder (frameReceiver/src/DummyUDPFrameDecoder.cpp, FrameDecoder.cpp) driven by the receiver thread
    (FrameReceiverUDPRxThread.cpp:98-140, FrameReceiverRxThread.cpp).  The receiver thread runs a single event loop, so the
    operations below follow one another. *)
From Verif Require Import Base.
Local Open Scope Z_scope.

(** common/include/DummyUDPDefinitions.h:18-25 *)
Definition max_packet_size : Z := 8964.
Definition max_packets : Z := 4195.
Definition packet_number_mask : Z := 2 ^ 30 - 1.

(** FrameDecoder.h:48-55 *)
Inductive rstate := RIncomplete | RComplete | RTimedout.

(** DummyUDPDefinitions.h:36-45, FrameHeader.  frame_start_time in nanoseconds.  [h_pstate]: packet_state, its index below
    max_packets. *)
Record hdr := Hdr { h_frame : Z; h_state : rstate; h_start : Z; h_expected : Z; h_received : Z; h_psize : Z; h_pstate : Z -> bool }.
(** A frame buffer: the header and the bytes after it. *)
Record buf := Buffer { b_hdr : hdr; b_data : Z -> Z }.

(** What current_frame_buffer_ and current_frame_header_ point to: dropped_frame_buffer_ or a shared buffer. *)
Inductive place := Scratch | Shared (id : Z).
Definition place_eqb (p q : place) : bool :=
  match p, q with Scratch, Scratch => true | Shared i, Shared j => i =? j | _, _ => false end.

(** frame_buffer_map_ : std::map<int,int>, in key order. *)
Definition zmap := list (Z * Z).
Fixpoint zm_get (m : zmap) (k : Z) : option Z :=
  match m with [] => None | (i, v) :: t => if i =? k then Some v else zm_get t k end.
Fixpoint zm_put (m : zmap) (k v : Z) : zmap :=
  match m with
  | [] => [(k, v)]
  | (i, x) :: t => if k <? i then (k, v) :: m else if i =? k then (k, v) :: t else (i, x) :: zm_put t k v
  end.
Definition zm_del (m : zmap) (k : Z) : zmap := filter (fun e => negb (fst e =? k)) m.

(** Configuration: udp_packets_per_frame_, udp_packet_size_, frame_timeout_ms_, and the number of shared buffers.  init
    (lines 87-130) admits up to max_packets and max_packet_size. *)
Record cfg := Cfg { ppf : Z; psize : Z; timeout_ms : Z; num_buffers : Z }.
Definition cfg_ok (c : cfg) : Prop := 0 <= ppf c <= max_packets /\ 0 <= psize c <= max_packet_size /\ 0 <= timeout_ms c < 2 ^ 32 /\ 0 <= num_buffers c < 2 ^ 31.

(** DummyUDPFrameDecoder.h:75-92 and FrameDecoder.h:96-101.  current_frame_buffer_ and current_frame_header_ always point to
    the same place ([None]: null, as constructed). *)
Record dec := Dec {
  d_seen : Z; d_curid : Z; d_cur : option place; d_dropping : bool;
  n_received : Z; n_lost : Z; n_dropped : Z; f_timedout : Z; f_dropped : Z;
  d_empty : list Z; d_map : zmap; d_mem : place -> buf }.

(** Constructor, lines 24-46.  [mem]: initial contents of the buffers. *)
Definition dec_init (mem : place -> buf) : dec := Dec (-1) (-1) None false 0 0 0 0 0 [] [] mem.

(** ready_callback_: buffer, frame number (int), and the contents of the buffer at that time. *)
Record ready := Ready { r_id : Z; r_frame : Z; r_buf : buf }.

(** SharedBufferManagerException from get_buffer_address. *)
Inductive dexc := EBuffer.

Definition upd_mem (m : place -> buf) (p : place) (b : buf) : place -> buf := fun q => if place_eqb q p then b else m q.
Definition wrap32 (z : Z) : Z := z mod 2 ^ 32.

(** get_buffer_address, SharedBufferManager.cpp:104-113: the int is converted to unsigned. *)
Definition legal_id (c : cfg) (id : Z) : bool := wrap32 id <? num_buffers c.

(** initialise_frame_header, lines 300-312 *)
Definition fresh_hdr (c : cfg) (fn now : Z) : hdr := Hdr (wrap32 fn) RIncomplete now (ppf c) 0 (psize c) (fun _ => false).
Definition with_hdr (h : hdr) (b : buf) : buf := Buffer h (b_data b).

Definition set_cur seen curid cur drop s := Dec seen curid cur drop (n_received s) (n_lost s) (n_dropped s) (f_timedout s) (f_dropped s) (d_empty s) (d_map s) (d_mem s).
Definition set_queue e m s := Dec (d_seen s) (d_curid s) (d_cur s) (d_dropping s) (n_received s) (n_lost s) (n_dropped s) (f_timedout s) (f_dropped s) e m (d_mem s).
Definition set_mem m s := Dec (d_seen s) (d_curid s) (d_cur s) (d_dropping s) (n_received s) (n_lost s) (n_dropped s) (f_timedout s) (f_dropped s) (d_empty s) (d_map s) m.
Definition count_frame_drop s := Dec (d_seen s) (d_curid s) (d_cur s) (d_dropping s) (n_received s) (n_lost s) (n_dropped s) (f_timedout s) (wrap32 (f_dropped s + 1)) (d_empty s) (d_map s) (d_mem s).
Definition count_packet s :=
  if d_dropping s then Dec (d_seen s) (d_curid s) (d_cur s) (d_dropping s) (n_received s) (n_lost s) (wrap32 (n_dropped s + 1)) (f_timedout s) (f_dropped s) (d_empty s) (d_map s) (d_mem s)
  else Dec (d_seen s) (d_curid s) (d_cur s) (d_dropping s) (wrap32 (n_received s + 1)) (n_lost s) (n_dropped s) (f_timedout s) (f_dropped s) (d_empty s) (d_map s) (d_mem s).

(** process_packet_header, lines 222-273: choose the buffer.  [fn]: frame number, as uint32_t. *)
Definition choose (c : cfg) (fn now : Z) (s : dec) : outcome dexc dec :=
  if fn =? wrap32 (d_seen s) then Ret s
  else
    let k := i32 fn in
    match zm_get (d_map s) k with
    | None =>
      match d_empty s with
      | [] =>
        let s1 := if d_dropping s then s else count_frame_drop s in
        let s2 := set_cur k (d_curid s) (Some Scratch) true s1 in
        Ret (set_mem (upd_mem (d_mem s) Scratch (with_hdr (fresh_hdr c k now) (d_mem s Scratch))) s2)
      | id :: rest =>
        if legal_id c id then
          let s1 := set_queue rest (zm_put (d_map s) k id) s in
          let s2 := set_cur k id (Some (Shared id)) false s1 in
          Ret (set_mem (upd_mem (d_mem s) (Shared id) (with_hdr (fresh_hdr c k now) (d_mem s (Shared id)))) s2)
        else Throw EBuffer
      end
    | Some id => if legal_id c id then Ret (set_cur k id (Some (Shared id)) (d_dropping s) s) else Throw EBuffer
    end.

(** Bytes after the header: shared buffers have get_frame_buffer_size (lines 161-166), the scratch buffer max_frame_size. *)
Definition capacity (c : cfg) (p : place) : Z := match p with Scratch => max_packet_size * max_packets | Shared _ => ppf c * psize c end.

(** Lines 275-288: packet_state (writing outside the array is undefined) and counters. *)
Definition mark (pn : Z) (h : hdr) : hdr :=
  Hdr (h_frame h) (h_state h) (h_start h) (h_expected h) (h_received h) (h_psize h) (fun i => if i =? pn then true else h_pstate h i).

(** recvmsg into get_next_payload_buffer / get_next_payload_size (lines 321-341, FrameReceiverUDPRxThread.cpp:121-136): the
    payload, cut to psize bytes, is written from psize * pn on. *)
Definition store (c : cfg) (pn : Z) (payload : list Z) (d : Z -> Z) : Z -> Z :=
  fun o => let i := o - psize c * pn in
           if (0 <=? i) && (i <? Z.min (Z.of_nat (length payload)) (psize c)) then nth (Z.to_nat i) payload 0 else d o.

Definition set_received (n : Z) (st : rstate) (h : hdr) : hdr :=
  Hdr (h_frame h) st (h_start h) (h_expected h) n (h_psize h) (h_pstate h).

(** One datagram: process_packet_header, receive, process_packet (lines 355-384).  [fn], [flags]: the two uint32_t of the
    packet header.  A datagram shorter than the header leaves old bytes in the header buffer: then [fn], [flags] are what is
    found there and the payload is empty. *)
Definition packet (c : cfg) (fn flags : Z) (payload : list Z) (now : Z) (s0 : dec) : outcome dexc (dec * list ready) :=
  let pn := Z.land flags packet_number_mask in
  match choose c fn now s0 with
  | Throw e => Throw e
  | Undef => Undef
  | Ret s1 =>
    match d_cur s1 with
    | None => Undef
    | Some p =>
      let len := Z.min (Z.of_nat (length payload)) (psize c) in
      if (max_packets <=? pn) || ((0 <? len) && (capacity c p <? psize c * pn + len)) then Undef
      else
        let b := d_mem s1 p in
        let n := wrap32 (h_received (b_hdr b) + 1) in
        let st := if n =? ppf c then RComplete else h_state (b_hdr b) in
        let b' := Buffer (set_received n st (mark pn (b_hdr b))) (store c pn payload (b_data b)) in
        let s2 := set_mem (upd_mem (d_mem s1) p b') (count_packet s1) in
        if (n =? ppf c) && negb (d_dropping s2) then
          Ret (set_cur (-1) (d_curid s2) (d_cur s2) (d_dropping s2) (set_queue (d_empty s2) (zm_del (d_map s2) (d_seen s2)) s2),
               [Ready (d_curid s2) (i32 (h_frame (b_hdr b'))) b'])
        else Ret (s2, [])
    end
  end.

(** elapsed_ms, lines 514-523, without the rounding of doubles; time does not go back (else the result is negative here and
    undefined in C++).  Beyond 2^32 ms (49 days) the conversion to unsigned int is undefined; here it wraps. *)
Definition elapsed_ms (start now : Z) : Z := wrap32 ((now - start) / 1000000).

(** The loop of monitor_buffers, lines 402-433, over the entries of the map. *)
Fixpoint monitor_loop (c : cfg) (now : Z) (l : zmap) (s : dec) (out : list ready) : outcome dexc (dec * list ready) :=
  match l with
  | [] => Ret (s, out)
  | (fn, id) :: t =>
    if legal_id c id then
      let b := d_mem s (Shared id) in
      if timeout_ms c <? elapsed_ms (h_start (b_hdr b)) now then
        let lost := wrap32 (ppf c - h_received (b_hdr b)) in
        let b' := with_hdr (set_received (h_received (b_hdr b)) RTimedout (b_hdr b)) b in
        let s' := Dec (d_seen s) (d_curid s) (d_cur s) (d_dropping s) (n_received s) (wrap32 (n_lost s + lost)) (n_dropped s)
                      (wrap32 (f_timedout s + 1)) (f_dropped s) (d_empty s) (zm_del (d_map s) fn) (upd_mem (d_mem s) (Shared id) b') in
        monitor_loop c now t s' (out ++ [Ready id fn b'])
      else monitor_loop c now t s out
    else Throw EBuffer
  end.

(** Events of the receiver thread. *)
Inductive dop :=
| Packet (fn flags : Z) (payload : list Z) (now : Z)
| Push (id : Z)                 (* push_empty_buffer: one buffer of a precharge, or a released buffer *)
| Monitor (now : Z)             (* monitor_buffers *)
| Touch (id : Z) (b : buf)      (* a write into the shared memory by another process: buffer [id] now contains [b] *)
| ResetStats.                   (* reset_statistics, lines 473-481 and FrameDecoder.cpp:228-233 *)

Definition dstep (c : cfg) (o : dop) (s : dec) : outcome dexc (dec * list ready) :=
  match o with
  | Packet fn flags payload now => packet c fn flags payload now s
  | Push id => Ret (set_queue (d_empty s ++ [id]) (d_map s) s, [])
  | Monitor now => monitor_loop c now (d_map s) s []
  | Touch id b => Ret (set_mem (upd_mem (d_mem s) (Shared id) b) s, [])
  | ResetStats => Ret (Dec (d_seen s) (d_curid s) (d_cur s) (d_dropping s) 0 0 0 0 0 (d_empty s) (d_map s) (d_mem s), [])
  end.

(** A history: each operation with the frames handed over during it, oldest first. *)
Inductive drun (c : cfg) (mem : place -> buf) : list (dop * list ready) -> dec -> Prop :=
| dr_init : drun c mem [] (dec_init mem)
| dr_step tr s o s' r : drun c mem tr s -> dstep c o s = Ret (s', r) -> drun c mem (tr ++ [(o, r)]) s'.
