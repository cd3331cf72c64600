(** Frames over TCP.  frameReceiver/src/FrameReceiverTCPRxThread.cpp, DummyTCPFrameDecoder.cpp, DummyTCPFrameDecoder.h. *)
From Verif Require Import Base.
Local Open Scope Z_scope.

(** DummyTCPFrameDecoder.h:12-18 *)
Definition frame_size : Z := 1000.
Definition num_buffers : Z := 5.
(** DummyTCPFrameDecoder.cpp:31: the size of the buffers that the controller makes (FrameReceiverController.cpp:637-640) *)
Definition buffer_size : Z := num_buffers * frame_size.
(** sizeof(Header), SharedBufferManager.h:32-37 *)
Definition manager_header : Z := 24.

(** What the calls of read on a connection find: bytes that have arrived together, the end of the connection, an error.  With nothing left read waits. *)
Inductive arrival := Bytes (l : list Z) | Closed | Failed.
Definition conn := list arrival.

(** FrameDecoder.h:51-58; the others are not used. *)
Inductive receive_state := Empty | Incomplete | Complete.
(** The decoder and its buffers: number of buffers of the manager, current_frame_buffer_id_, read_so_far_, receive_state_, shared memory, calls of the ready callback *)
Record tcp := Tcp { t_num : Z; t_id : Z; t_read : Z; t_state : receive_state; t_mem : Z -> Z; t_ready : list (Z * Z) }.
(** DummyTCPFrameDecoder.cpp:18-33 *)
Definition tcp_init (num : Z) (mem : Z -> Z) : tcp := Tcp num 0 0 Empty mem [].

(** SharedBufferManager::get_buffer_address as an offset, SharedBufferManager.cpp:104-113 *)
Definition buffer_address (num b : Z) : option Z := if num <=? b then None else Some (manager_header + b * buffer_size).
(** get_next_message_buffer, lines 78-91.  The sum is compared as unsigned int. *)
Definition next_buffer (s : tcp) : tcp :=
  match t_state s with
  | Incomplete => s
  | _ => Tcp (t_num s) (if num_buffers <=? (t_id s + 1) mod 2 ^ 32 then 0 else t_id s + 1) (t_read s) (t_state s) (t_mem s) (t_ready s)
  end.
(** get_next_message_size, lines 134-136: a size_t *)
Definition next_size (s : tcp) : Z := (frame_size - t_read s) mod 2 ^ 64.
Definition store (a : Z) (l : list Z) (m : Z -> Z) : Z -> Z := fun x => if (a <=? x) && (x <? a + Z.of_nat (length l)) then nth (Z.to_nat (x - a)) l 0 else m x.

(** How a call ends: it returns, waits in read, loops for ever, throws, or writes outside of the memory. *)
Inductive ended := Returned | Waits | Loops | Raised | Outside.
(** The loop of FrameReceiverTCPRxThread.cpp:114-119: [p] the place for the next bytes, [got] bytes_received, a size_t.  read gives what has arrived, but not more than asked for; 0 at the end of the connection, and then always; -1 on errors. *)
Fixpoint read_loop (num : Z) (c : conn) (p size got : Z) (m : Z -> Z) : conn * (Z -> Z) * Z * ended :=
  if got <? size then
    match c with
    | [] => (c, m, got, Waits)
    | Bytes l :: r =>
      let n := Z.min (Z.of_nat (length l)) (size - got) in
      if manager_header + num * buffer_size <? p + n then (c, m, got, Outside)
      else if n <? Z.of_nat (length l) then (Bytes (skipn (Z.to_nat n) l) :: r, store p (firstn (Z.to_nat n) l) m, (got + n) mod 2 ^ 64, Returned)
      else read_loop num r (p + n) size ((got + n) mod 2 ^ 64) (store p l m)
    | Closed :: r => (c, m, got, Loops)
    | Failed :: r => read_loop num r (p - 1) size ((got - 1) mod 2 ^ 64) m
    end
  else (c, m, got, Returned).
(** process_message, lines 119-132.  No call of the ready callback, no change of the state. *)
Definition process_message (n : Z) (s : tcp) : tcp * ended :=
  let a := (t_read s + n) mod 2 ^ 64 in
  if a =? frame_size then (Tcp (t_num s) (t_id s) 0 (t_state s) (t_mem s) (t_ready s), Returned)
  else if a <? frame_size then (Tcp (t_num s) (t_id s) a (t_state s) (t_mem s) (t_ready s), Returned)
  else (s, Raised).
(** handle_receive_socket, FrameReceiverTCPRxThread.cpp:105-121 *)
Definition handle_receive (c : conn) (s0 : tcp) : conn * tcp * ended :=
  let s := next_buffer s0 in
  match buffer_address (t_num s) (t_id s) with
  | None => (c, s, Raised)
  | Some a =>
    let '(c1, m, got, e) := read_loop (t_num s) c (a + t_read s) (next_size s) 0 (t_mem s) in
    let s1 := Tcp (t_num s) (t_id s) (t_read s) (t_state s) m (t_ready s) in
    match e with Returned => let '(s2, e2) := process_message got s1 in (c1, s2, e2) | _ => (c1, s1, e) end
  end.

(** The reactor calls the handler of the connections in which something has arrived, in any order; [k]: which. *)
Definition on {A} (f : nat -> A) (k : nat) (x : A) : nat -> A := fun i => if Nat.eqb i k then x else f i.
Inductive served : (nat -> conn) -> tcp -> list nat -> (nat -> conn) -> tcp -> Prop :=
| sv_none cs s : served cs s [] cs s
| sv_one cs s k c1 s1 l cs2 s2 : cs k <> [] -> handle_receive (cs k) s = (c1, s1, Returned) -> served (on cs k c1) s1 l cs2 s2 -> served cs s (k :: l) cs2 s2.
