(** The way of the shared buffers: receiver thread, receiver main thread, frame processor and back.
    frameReceiver/src/FrameReceiverRxThread.cpp, FrameReceiverController.cpp, frameProcessor/src/SharedMemoryController.cpp,
    SharedBufferFrame.cpp, DummyUDPProcessPlugin.cpp. *)
From Verif Require Import Base DecModel.
Local Open Scope Z_scope.

(** Messages from the receiver's main thread to the receiver thread: "buffer_precharge" for all buffers
    (FrameReceiverController.cpp:1023-1039) and "frame_release" (lines 969-1014). *)
Inductive msg := Pre | Rel (id : Z).

(** A SharedBufferFrame of the frame processor: buffer, frame number, number of shared pointers to it.  [o_buf] is not a field of
    the frame: it follows what the frame processor knows about the contents: what was handed over, then its own writes. *)
Record held := Held { o_id : Z; o_frame : Z; o_refs : nat; o_buf : buf }.

(** The system.  Channels are ordered and lose nothing; the receiver's main thread passes messages on (FrameReceiverController
    .cpp:921-927, 977-983), so each direction is one channel.  [y_trace]: history of the decoder.  [y_lost]: buffers of ready
    messages that were thrown away.  [y_out]: images pushed by the process plugin, with frame numbers.  [y_plost]: packets_lost_
    of the process plugin. *)
Record sys := Sys { y_dec : dec; y_trace : list (dop * list ready); y_ready : list ready; y_conf : bool; y_held : list held;
                    y_back : list msg; y_lost : list Z; y_out : list (Z * list Z); y_plost : Z }.
Definition sys_init (mem : place -> buf) : sys := Sys (dec_init mem) [] [] false [] [] [] [] 0.

(** DummyUDPProcessPlugin::process_lost_packets, lines 285-326: the loop of lines 302-312 from packet [i] on, [n] packets to go.
    (expected is at most max_packets when the header comes from the decoder.) *)
Fixpoint zero_missing (h : hdr) (i : Z) (n : nat) (d : Z -> Z) (lost : Z) : (Z -> Z) * Z :=
  match n with
  | O => (d, lost)
  | S n' =>
    if h_pstate h i then zero_missing h (i + 1) n' d lost
    else zero_missing h (i + 1) n' (fun o => if (h_psize h * i <=? o) && (o <? h_psize h * i + h_psize h) then 0 else d o) (lost + 1)
  end.
(** The contents afterwards and the number added to packets_lost_. *)
Definition process_lost (b : buf) : buf * Z :=
  let h := b_hdr b in
  if 0 <? i32 (wrap32 (h_expected h - h_received h)) then
    let '(d, lost) := zero_missing h 0 (Z.to_nat (h_expected h)) (b_data b) 0 in (Buffer h d, lost)
  else (b, 0).

(** DummyUDPProcessPlugin::process_frame, lines 205-278, for image_width_ [w] and image_height_ [ht].  The image that is pushed: a copy
    (copy_frame_) or the same bytes of the buffer (set_image_offset, set_image_size).  An image larger than the buffer is read
    beyond its end; int overflow of the size is undefined too. *)
Definition process_frame (c : cfg) (w ht : Z) (b : buf) : outcome dexc (buf * Z * (Z * list Z)) :=
  let '(b', lost) := process_lost b in
  let size := w * ht * 2 in
  if in_i32 (w * ht) && (0 <=? size) && (size <=? ppf c * psize c) then
    Ret (b', lost, (h_frame (b_hdr b), map (fun n => b_data b' (Z.of_nat n)) (seq 0 (Z.to_nat size))))
  else Undef.

Definition set_held l s := Sys (y_dec s) (y_trace s) (y_ready s) (y_conf s) l (y_back s) (y_lost s) (y_out s) (y_plost s).
Definition set_back l s := Sys (y_dec s) (y_trace s) (y_ready s) (y_conf s) (y_held s) l (y_lost s) (y_out s) (y_plost s).
Definition set_ready l s := Sys (y_dec s) (y_trace s) l (y_conf s) (y_held s) (y_back s) (y_lost s) (y_out s) (y_plost s).
Definition add_out o n s := Sys (y_dec s) (y_trace s) (y_ready s) (y_conf s) (y_held s) (y_back s) (y_lost s) (y_out s ++ [o]) (i32 (y_plost s + n)).

Fixpoint set_at {A} (i : nat) (x : A) (l : list A) : list A :=
  match l, i with [], _ => [] | _ :: t, O => x :: t | y :: t, S j => y :: set_at j x t end.
Fixpoint del_at {A} (i : nat) (l : list A) : list A :=
  match l, i with [], _ => [] | _ :: t, O => t | y :: t, S j => y :: del_at j t end.

(** The decoder makes a step; frames that are ready are sent (FrameReceiverRxThread.cpp:410-420). *)
Definition dec_step (c : cfg) (o : dop) (s : sys) : outcome dexc sys :=
  match dstep c o (y_dec s) with
  | Ret (d, r) => Ret (Sys d (y_trace s ++ [(o, r)]) (y_ready s ++ r) (y_conf s) (y_held s) (y_back s) (y_lost s) (y_out s) (y_plost s))
  | Throw e => Throw e
  | Undef => Undef
  end.
Fixpoint push_all (c : cfg) (l : list Z) (s : sys) : outcome dexc sys :=
  match l with [] => Ret s | id :: t => match dec_step c (Push id) s with Ret s' => push_all c t s' | Throw e => Throw e | Undef => Undef end end.

Inductive yop :=
| YStart                                        (* the receiver thread starts (again), FrameReceiverRxThread.cpp:165-168 *)
| YPacket (fn flags : Z) (payload : list Z) (now : Z) | YMonitor (now : Z) | YReset
| YMsg                                          (* the receiver thread handles a message, lines 284-320 *)
| YConfig                                       (* the frame processor maps the shared memory, SharedMemoryController.cpp:95-115 *)
| YReceive (n : nat)                            (* it handles a ready message, lines 172-204, with n plugins connected *)
| YShare (j : nat) | YDrop (j : nat)            (* one more or less shared pointer to frame j *)
| YWrite (j : nat) (b : buf)                    (* a plugin writes into frame j *)
| YProcess (j : nat) (w ht : Z).                (* the process plugin handles frame j *)

(** A step that is not possible (no message, no such frame) changes nothing. *)
Definition ystep (c : cfg) (o : yop) (s : sys) : outcome dexc sys :=
  match o with
  | YStart => Ret (match d_empty (y_dec s) with [] => set_back (y_back s ++ [Pre]) s | _ => s end)
  | YPacket fn fl p t => dec_step c (Packet fn fl p t) s
  | YMonitor t => dec_step c (Monitor t) s
  | YReset => dec_step c ResetStats s
  | YMsg =>
    match y_back s with
    | [] => Ret s
    | Rel id :: t => dec_step c (Push id) (set_back t s)
    | Pre :: t => push_all c (map Z.of_nat (seq 0 (Z.to_nat (num_buffers c)))) (set_back t s)
    end
  | YConfig => Ret (Sys (y_dec s) (y_trace s) (y_ready s) true (y_held s) (y_back s) (y_lost s) (y_out s) (y_plost s))
  | YReceive n =>
    match y_ready s with
    | [] => Ret s
    | x :: t =>
      if y_conf s then
        if legal_id c (r_id x) then
          match n with
          | O => Ret (set_back (y_back s ++ [Rel (r_id x)]) (set_ready t s))
          | S _ => Ret (set_held (y_held s ++ [Held (r_id x) (r_frame x) n (r_buf x)]) (set_ready t s))
          end
        else Throw EBuffer
      else Ret (Sys (y_dec s) (y_trace s) t (y_conf s) (y_held s) (y_back s) (y_lost s ++ [r_id x]) (y_out s) (y_plost s))
    end
  | YShare j =>
    Ret (match nth_error (y_held s) j with
         | Some h => set_held (set_at j (Held (o_id h) (o_frame h) (S (o_refs h)) (o_buf h)) (y_held s)) s
         | None => s end)
  | YDrop j =>                                  (* the last one: ~SharedBufferFrame, SharedBufferFrame.cpp:31-39 *)
    Ret (match nth_error (y_held s) j with
         | Some h =>
           match o_refs h with
           | S (S n) => set_held (set_at j (Held (o_id h) (o_frame h) (S n) (o_buf h)) (y_held s)) s
           | _ => set_back (y_back s ++ [Rel (o_id h)]) (set_held (del_at j (y_held s)) s)
           end
         | None => s end)
  | YWrite j b =>
    match nth_error (y_held s) j with
    | Some h => dec_step c (Touch (o_id h) b) (set_held (set_at j (Held (o_id h) (o_frame h) (o_refs h) b) (y_held s)) s)
    | None => Ret s
    end
  | YProcess j w ht =>
    match nth_error (y_held s) j with
    | Some h =>
      match process_frame c w ht (d_mem (y_dec s) (Shared (o_id h))) with
      | Ret (b, n, out) =>
        dec_step c (Touch (o_id h) b) (add_out out n (set_held (set_at j (Held (o_id h) (o_frame h) (o_refs h) b) (y_held s)) s))
      | Throw e => Throw e
      | Undef => Undef
      end
    | None => Ret s
    end
  end.

Inductive yrun (c : cfg) (mem : place -> buf) : list yop -> sys -> Prop :=
| yr_init : yrun c mem [] (sys_init mem)
| yr_step ops s o s' : yrun c mem ops s -> ystep c o s = Ret s' -> yrun c mem (ops ++ [o]) s'.
