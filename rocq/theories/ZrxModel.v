(** The ZMQ receiver thread: one part of a message per call of handle_receive_socket. *)
From Verif Require Import Base.
Local Open Scope N_scope.

(** What the frame decoder does (FrameDecoderZMQ.h:27-41), any state machine: where the next part shall go (address and
    the bytes allocated there), a part of so many bytes has been put there, the message is complete.  It sees the
    memory; what it writes to it is left out. *)
Record decoder (D : Type) := Decoder {
  d_next : D -> D * (N * N);
  d_process : D -> (N -> N) -> N -> D;
  d_meta : D -> Z -> D }.
Arguments d_next {D}. Arguments d_process {D}. Arguments d_meta {D}.

(** What the decoder is told, with the bytes it finds where it asked for them. *)
Inductive told := Part (bytes : list N) | Complete (meta : Z).

(** A part as the socket delivers it: bytes, and ZMQ_RCVMORE after it. *)
Definition zpart := (list N * bool)%type.

Record zrx (D : Type) := Zrx { z_dec : D; z_mem : N -> N; z_queue : list zpart; z_told : list told }.
Arguments Zrx {D}. Arguments z_dec {D}. Arguments z_mem {D}. Arguments z_queue {D}. Arguments z_told {D}.

(** memcpy of IpcChannel::recv_raw (common/src/IpcChannel.cpp:380). *)
Definition copy (mem : N -> N) (at_ : N) (bytes : list N) : N -> N := fun a =>
  if a <? at_ then mem a else match nth_error bytes (N.to_nat (a - at_)) with Some b => b | None => mem a end.

(** The bytes found at an address. *)
Definition peek (mem : N -> N) (at_ : N) (len : nat) : list N := map (fun i => mem (at_ + N.of_nat i)) (seq 0 len).

(** frameReceiver/src/FrameReceiverZMQRxThread.cpp:57-77 (handle_receive_socket) with recv_raw (IpcChannel.cpp:360-383) and
    eom (IpcChannel.cpp:418-432).  [dec = None]: the decoder is of another type, the cast of line 23 gave a null pointer.
    [Throw]: nothing to receive, recv blocks (the reactor calls only when a part is there).  A part that does not fit in
    what the decoder allocated is written beyond it. *)
Definition handle_receive_socket {D} (dec : option (decoder D)) (s : zrx D) : outcome unit (zrx D) :=
  match dec with
  | None => Undef
  | Some c =>
    let '(d1, (at_, room)) := d_next c (z_dec s) in
    match z_queue s with
    | [] => Throw tt
    | (bytes, more) :: rest =>
      if room <? N.of_nat (List.length bytes) then Undef
      else
        let mem := copy (z_mem s) at_ bytes in
        let msg_len := N.of_nat (List.length bytes) in
        let d2 := d_process c d1 mem msg_len in
        let t := z_told s ++ [Part (peek mem at_ (N.to_nat msg_len))] in
        if negb more then Ret (Zrx (d_meta c d2 1) mem rest (t ++ [Complete 1]))
        else Ret (Zrx d2 mem rest t)
    end
  end.

(** The reactor calls it again and again. *)
Fixpoint handle_times {D} (dec : option (decoder D)) (n : nat) (s : zrx D) : outcome unit (zrx D) :=
  match n with
  | O => Ret s
  | S k => match handle_receive_socket dec s with Ret s1 => handle_times dec k s1 | Throw e => Throw e | Undef => Undef end
  end.

(** ZeroMQ delivers messages whole, one after the other (also from several peers): their parts, each with the flag. *)
Fixpoint parts_of (m : list (list N)) : list zpart :=
  match m with [] => [] | [p] => [(p, false)] | p :: r => (p, true) :: parts_of r end.
Definition arrives (ms : list (list (list N))) : list zpart := flat_map parts_of ms.
