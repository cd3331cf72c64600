(** The simulator's replay: options, captured packets, drops, ports.  frameSimulator/src/FrameSimulatorPluginUDP.cpp,
    FrameSimulatorPlugin.cpp, FrameSimulatorOption.cpp. *)
From Coq Require Import String Ascii.
From Verif Require Import Base StrOrder FrameModel JsonModel LiveModel PortModel SimModel.
Local Open Scope string_scope.
Local Open Scope list_scope.
Local Open Scope Z_scope.

(** FrameSimulatorOption.cpp:12-14 (set_list_option): boost::split at commas; token_compress_on makes one separator of several, so
    empty tokens remain only in front of the first and behind the last. *)
Fixpoint squeeze (l : list string) : list string :=
  match l with [] => [] | [x] => [x] | x :: t => if String.eqb x "" then squeeze t else x :: squeeze t end.
Definition set_list_option (s : string) : list string :=
  match split_on "," s with [] => [] | [x] => [x] | x :: t => x :: squeeze t end.

(** atoi as in glibc: strtol in base 10, converted to int. *)
Definition atoi (s : string) : Z :=
  match trim_left s with
  | String c r => i32 (clamp (if Ascii.eqb c "-" then - digits 10 0 r else if Ascii.eqb c "+" then digits 10 0 r else digits 10 0 (String c r)))
  | EmptyString => 0
  end.
(** setup, lines 71-91: the ports of m_addrs (htons of an int: 16 bits). *)
Definition dest_ports (s : string) : list Z := map (fun t => atoi t mod 2 ^ 16) (set_list_option s).

(** The options that matter here.  [o_frac]: drop_frac_, with the outcome of the comparison of line 168 for packet [p] of replayed frame
    [f] (random).  [o_gap]: packet_gap_.  Frame interval and pauses only take time and are left out. *)
Record opts := Opts { o_frames : option Z; o_frac : option (nat -> nat -> bool); o_list : option (list string); o_gap : option Z; o_ports : list Z }.
(** The option texts: ports, drop-packets (lines 63-72); frames has the default 1000 (FrameSimulatorOptions.h:14-15). *)
Definition setup (ports : option string) (frames : option Z) (frac : option (nat -> nat -> bool)) (drops : option string) (gap : option Z) : opts :=
  Opts (Some (match frames with Some n => n | None => 1000 end)) frac (option_map set_list_option drops) gap
       (dest_ports (match ports with Some s => s | None => "9999" end)).

(** Member variables and what was sent: destination port and packet, in order. *)
Record sender := Sender { s_frame : Z; s_index : Z; s_sent : list (Z * pkt) }.
Definition sender_init : sender := Sender 0 0 [].

(** send_packet, lines 242-250.  The comparison converts the int to size_t.  bind may fail without consequence. *)
Definition send_packet (ports : list Z) (p : pkt) (frame : Z) (s : sender) : outcome sexc sender :=
  let i := if negb (frame =? s_frame s) then (if s_index s + 1 <? Z.of_nat (List.length ports) then s_index s + 1 else 0) else s_index s in
  match nth_error ports (Z.to_nat i) with
  | None => Undef
  | Some a => Ret (Sender frame i (s_sent s ++ [(a, p)]))
  end.

(** int counters of replay_frames: packets sent, dropped, bytes.  Overflow is undefined. *)
Record tally := Tally { t_sent : Z; t_dropped : Z; t_bytes : Z }.
Definition zero_tally : tally := Tally 0 0 0.
Definition add_tally (a b : tally) : outcome sexc tally :=
  if in_i32 (t_sent a + t_sent b) && in_i32 (t_dropped a + t_dropped b) && in_i32 (t_bytes a + t_bytes b)
  then Ret (Tally (t_sent a + t_sent b) (t_dropped a + t_dropped b) (t_bytes a + t_bytes b)) else Undef.

(** Lines 166-183: is packet [p] of replayed frame [f] dropped?  lexical_cast<std::string>(p) is its decimal text. *)
Definition dropped (o : opts) (f p : nat) : bool :=
  match o_frac o with Some lot => lot f p | None => false end ||
  match o_list o with Some l => existsb (String.eqb (decimal (Z.of_nat p))) l | None => false end.

(** The loop over the packets, lines 164-196.  [result k]: what the [k]-th call of sendto returns. *)
Fixpoint send_frame (o : opts) (result : nat -> Z) (f : nat) (n : Z) (l : list pkt) (p : nat) (t : tally) (s : sender) : outcome sexc (tally * sender) :=
  match l with
  | [] => Ret (t, s)
  | x :: l' =>
    if dropped o f p then match add_tally t (Tally 0 1 0) with Ret t' => send_frame o result f n l' (S p) t' s | Throw e => Throw e | Undef => Undef end
    else
      match send_packet (o_ports o) x n s with
      | Ret s' =>
        match add_tally t (Tally 1 0 (result (List.length (s_sent s)))) with
        | Ret t' =>
          match o_gap o with
          | Some 0 => Undef                                 (* line 190: remainder of a division by zero *)
          | _ => send_frame o result f n l' (S p) t' s'
          end
        | Throw e => Throw e
        | Undef => Undef
        end
      | Throw e => Throw e
      | Undef => Undef
      end
  end.

(** The loop over the frames, lines 147-229, for the replayed frames in the list. *)
Fixpoint send_frames (o : opts) (result : nat -> Z) (fs : list uframe) (l : list nat) (t : tally) (s : sender) : outcome sexc (tally * sender) :=
  match l with
  | [] => Ret (t, s)
  | f :: l' =>
    let n := Nat.modulo f (List.length fs) in
    match nth_error fs n with
    | None => Undef
    | Some u =>
      match send_frame o result f (Z.of_nat n) (u_pkts u) 0 zero_tally s with
      | Ret (t1, s1) => match add_tally t t1 with Ret t' => send_frames o result fs l' t' s1 | Throw e => Throw e | Undef => Undef end
      | Throw e => Throw e
      | Undef => Undef
      end
    end
  end.

(** replay_frames, lines 130-237.  Without frames nothing is sent (line 147).  The number of packets of a frame and of frames fit in an int. *)
Definition replay_frames (o : opts) (result : nat -> Z) (fs : list uframe) : outcome sexc (tally * sender) :=
  let count := match o_frames o with Some n => n | None => Z.of_nat (List.length fs) end in
  match fs with
  | [] => Ret (zero_tally, sender_init)
  | _ => send_frames o result fs (seq 0 (Z.to_nat count)) zero_tally sender_init
  end.

(** ** Captured packets *)
(** x86: low byte first. *)
Definition word (l : list Z) : Z := fold_right (fun b a => b + 256 * a) 0 l.
(** prepare_packets, lines 111-125, and lines 166-172 of DummyUDPFrameSimulatorPlugin.cpp: 14 bytes of Ethernet header, the IP header whose
    length is in the low half of its first byte in units of 4, 8 bytes of UDP header (`sizeof udph` is the size of a pointer), then the
    packet.  [buffer]: the bytes captured; [len]: header->len, the length of the packet on the wire.  Reading behind the buffer, or a packet
    too short for its own header, is undefined. *)
Definition capture_packet (buffer : list Z) (len : Z) : outcome sexc pkt :=
  match nth_error buffer 14 with
  | None => Undef
  | Some b =>
    let header := 14 + 4 * (b mod 16) + 8 in
    let size := len - header in
    if (Z.of_nat (List.length buffer) <? len) || (size <? 8) then Undef
    else let d := firstn (Z.to_nat size) (skipn (Z.to_nat header) buffer) in
         Ret (Pkt (word (firstn 4 d)) (word (firstn 4 (skipn 4 d))) (skipn 8 d))
  end.
(** pcap_loop with pkt_callback, lines 95-107, 279-282: each packet of the capture in order. *)
Fixpoint read_capture (l : list (list Z * Z)) (fs : list uframe) : outcome sexc (list uframe) :=
  match l with
  | [] => Ret fs
  | (buffer, len) :: l' =>
    match capture_packet buffer len with
    | Ret p => match extract p fs with Ret fs' => read_capture l' fs' | Throw e => Throw e | Undef => Undef end
    | Throw e => Throw e
    | Undef => Undef
    end
  end.
