(** The simulator of the dummy UDP detector.  frameSimulator/src/DummyUDPFrameSimulatorPlugin.cpp, FrameSimulatorPluginUDP.cpp. *)
From Verif Require Import Base.
Local Open Scope Z_scope.

(** common/include/DummyUDPDefinitions.h:23-25 *)
Definition sof_mask : Z := 2 ^ 31.
Definition eof_mask : Z := 2 ^ 30.
Definition number_mask : Z := 2 ^ 30 - 1.

(** A stored packet: the two fields of its header and the bytes after it (frameSimulator/include/Packet.h). *)
Record pkt := Pkt { k_frame : Z; k_flags : Z; k_data : list Z }.
(** UDPFrame.h:18-30: number, packets, SOF_markers, EOF_markers.  trailer_frame_num is not used. *)
Record uframe := UFrame { u_number : Z; u_pkts : list pkt; u_sof : list Z; u_eof : list Z }.

Inductive sexc := EAlloc.   (* std::bad_alloc / std::bad_array_new_length *)

(** create_frames lines 89-94: pixel [p] has the value p & 0xFFFF; the bytes of the array, low byte first (x86). *)
Definition pixel_byte (o : Z) : Z := let v := (o / 2) mod 2 ^ 16 in if o mod 2 =? 0 then v mod 256 else v / 256.

(** The while loop, lines 109-146, from byte [off] on with [rem] bytes remaining, at most [n] packets. *)
Fixpoint cut (plen frame : Z) (n : nat) (pno off rem : Z) : list pkt :=
  match n with
  | O => []
  | S n' =>
    if 0 <? rem then
      let last := negb (plen <? rem) in
      let len := if last then rem else plen in
      let flags := if last then eof_mask else if pno =? 0 then sof_mask else 0 in
      Pkt frame (Z.lor (Z.land pno number_mask) flags) (map (fun i => pixel_byte (off + Z.of_nat i)) (seq 0 (Z.to_nat len)))
        :: cut plen frame n' ((pno + 1) mod 2 ^ 32) (off + len) (rem - len)
    else []
  end.

(** extract_frames, lines 163-207, for one packet.  frames_[frames_.size() - 1] of an empty vector is undefined. *)
Definition extract (p : pkt) (fs : list uframe) : outcome sexc (list uframe) :=
  let sof := negb (Z.land (k_flags p) sof_mask =? 0) in
  let eof := negb (Z.land (k_flags p) eof_mask =? 0) in
  let fs1 := if sof then fs ++ [UFrame (k_frame p) [] [k_frame p] []] else fs in
  match rev fs1 with
  | [] => Undef
  | u :: before => Ret (rev before ++ [UFrame (u_number u) (u_pkts u ++ [p]) (u_sof u) (u_eof u ++ (if eof then [k_frame p] else []))])
  end.
Fixpoint extract_all (l : list pkt) (fs : list uframe) : outcome sexc (list uframe) :=
  match l with [] => Ret fs | p :: t => match extract p fs with Ret fs' => extract_all t fs' | Throw e => Throw e | Undef => Undef end end.

(** The packets of one frame.  packet_len_ 0: the loop does not end, until memory is used up; negative: the comparison of line 116 is
    unsigned and the buffer of line 100 too small for what is copied (or its size absurd).  Both are [Undef] here. *)
Definition frame_packets (plen bytes frame : Z) : list pkt := cut plen frame (Z.to_nat bytes) 0 0 bytes.

(** create_frames, lines 84-156.  num_frames is int; frame numbers count from 0. *)
Definition create_frames (w h plen : Z) (num_frames : Z) : outcome sexc (list uframe) :=
  if negb (in_i32 (w * h)) then Undef
  else if w * h <? 0 then Throw EAlloc
  else if plen <=? 0 then Undef
  else extract_all (flat_map (fun f => frame_packets plen (2 * (w * h)) (Z.of_nat f)) (seq 0 (Z.to_nat num_frames))) [].

(** replay_frames, lines 136-236: what is handed to sendto, in order.  [drop f p]: the packet is left out, by drop_frac_ (random)
    or drop_packets_.  One destination; sending does not fail. *)
Fixpoint keep {A} (d : nat -> bool) (p : nat) (l : list A) : list A :=
  match l with [] => [] | x :: t => if d p then keep d (S p) t else x :: keep d (S p) t end.
Definition replay (fs : list uframe) (num_frames : Z) (drop : nat -> nat -> bool) : list pkt :=
  match fs with
  | [] => []
  | _ :: _ => flat_map (fun f => match nth_error fs (Nat.modulo f (length fs)) with Some u => keep (drop f) 0 (u_pkts u) | None => [] end) (seq 0 (Z.to_nat num_frames))
  end.
