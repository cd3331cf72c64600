(** The life of the receiver thread: FrameReceiverRxThread::start, stop, run_service against the main thread of the frame receiver, with the descriptors and
    ports it holds and the messages between the two threads.  frameReceiver/src/FrameReceiverRxThread.cpp, FrameReceiverUDPRxThread.cpp,
    FrameReceiverTCPRxThread.cpp, FrameReceiverZMQRxThread.cpp, FrameReceiverController.cpp.  Not modelled: what packets contain ([DecModel], [TcpModel]), logging. *)
From Verif Require Import Base.

(** Descriptors of the process: those of other parts of the program, sockets of receiver threads (not bound; bound to address and port; connected). *)
Inductive desc := Foreign | Plain | Bound (a p : Z) | Conn.
Definition table := list (Z * desc).
Definition fresh (fd : Z) (t : table) : bool := (0 <=? fd)%Z && negb (existsb (fun e => (fst e =? fd)%Z) t).
(** close(): a descriptor that is not open is ignored (EBADF). *)
Definition shut (fd : Z) (t : table) : table := filter (fun e => negb (fst e =? fd)%Z) t.
(** Two UDP sockets without SO_REUSEADDR: the same port, addresses equal or one of them 0.0.0.0 (0); port 0 asks for any free port. *)
Definition clash (a p b q : Z) : bool := (p =? q)%Z && negb (p =? 0)%Z && ((a =? b)%Z || (a =? 0)%Z || (b =? 0)%Z).
Definition in_use (a p : Z) (t : table) (others : list (Z * Z)) : bool :=
  existsb (fun e => match snd e with Bound b q => clash a p b q | _ => false end) t || existsb (fun o => clash a p (fst o) (snd o)) others.

Inductive kind := UDP | TCP | ZMQ.
(** What the thread is constructed with: type, address ([None]: not an address), ports, type of the decoder (dynamic_pointer_cast gives null if it is another). *)
Record cfg := Cfg { f_kind : kind; f_addr : option Z; f_ports : list Z; f_decoder : kind }.
Definition same_kind (k j : kind) : bool := match k, j with UDP, UDP | TCP, TCP | ZMQ, ZMQ => true | _, _ => false end.

(** The receiver thread in run_service (FrameReceiverRxThread.cpp:111-189): connecting the channel, ports to go, the test of lines 153-157, the advertisement, in the
    reactor, about to send, reading a message of TCP with bytes to come, cleaning up, ended. *)
Inductive tpc := TConnect | TPorts (l : list Z) | TCheck | TAnnounce | TLoop | TSend | TRead (n : nat) | TClean | TDone.
(** The main thread: no receiver thread, waiting in start (lines 51-84) for the n-th time, started with this result, waiting in stop (lines 92-104). *)
Inductive cpc := CIdle | CSpin (n : N) | CReady (ok : bool) | CJoin.
Inductive note := NIdentity (gen : nat) | NOther.
(** [s_cap]: messages the channel to the main thread holds; after that send waits.  [s_known]: rx_thread_identity_, by the number of the thread.  [s_inq]: releases sent to
    the thread; [s_got]: those given to the decoder; [s_lost]: those a ROUTER socket drops because nobody has the identity, or that were not read.
    [s_late]: start gave up.  [s_errors]: threads that failed to initialise.  [s_undef]: undefined behaviour.  [s_crash]: exception out of the thread. *)
Record sys := Sys { s_table : table; s_others : list (Z * Z); s_c : cpc; s_t : tpc; s_cfg : cfg; s_gen : nat; s_run : bool; s_running : bool; s_error : bool;
  s_socks : list Z; s_out : list note; s_known : option nat; s_inq : list Z; s_got : list Z; s_lost : list Z; s_late : bool; s_errors : nat; s_undef : bool; s_crash : bool }.
Definition rx_init (t : table) (o : list (Z * Z)) : sys := Sys t o CIdle TDone (Cfg UDP None [] UDP) 0 false false false [] [] None [] [] [] false 0 false false.

Definition set_c c s := Sys (s_table s) (s_others s) c (s_t s) (s_cfg s) (s_gen s) (s_run s) (s_running s) (s_error s) (s_socks s) (s_out s) (s_known s) (s_inq s) (s_got s) (s_lost s) (s_late s) (s_errors s) (s_undef s) (s_crash s).
Definition set_t t s := Sys (s_table s) (s_others s) (s_c s) t (s_cfg s) (s_gen s) (s_run s) (s_running s) (s_error s) (s_socks s) (s_out s) (s_known s) (s_inq s) (s_got s) (s_lost s) (s_late s) (s_errors s) (s_undef s) (s_crash s).
Definition set_run b s := Sys (s_table s) (s_others s) (s_c s) (s_t s) (s_cfg s) (s_gen s) b (s_running s) (s_error s) (s_socks s) (s_out s) (s_known s) (s_inq s) (s_got s) (s_lost s) (s_late s) (s_errors s) (s_undef s) (s_crash s).
Definition set_running s := Sys (s_table s) (s_others s) (s_c s) (s_t s) (s_cfg s) (s_gen s) (s_run s) true (s_error s) (s_socks s) (s_out s) (s_known s) (s_inq s) (s_got s) (s_lost s) (s_late s) (s_errors s) (s_undef s) (s_crash s).
(** lines 430-434 (set_thread_init_error) *)
Definition set_error s := Sys (s_table s) (s_others s) (s_c s) (s_t s) (s_cfg s) (s_gen s) (s_run s) (s_running s) true (s_socks s) (s_out s) (s_known s) (s_inq s) (s_got s) (s_lost s) (s_late s) (S (s_errors s)) (s_undef s) (s_crash s).
Definition set_table t s := Sys t (s_others s) (s_c s) (s_t s) (s_cfg s) (s_gen s) (s_run s) (s_running s) (s_error s) (s_socks s) (s_out s) (s_known s) (s_inq s) (s_got s) (s_lost s) (s_late s) (s_errors s) (s_undef s) (s_crash s).
Definition set_socks l s := Sys (s_table s) (s_others s) (s_c s) (s_t s) (s_cfg s) (s_gen s) (s_run s) (s_running s) (s_error s) l (s_out s) (s_known s) (s_inq s) (s_got s) (s_lost s) (s_late s) (s_errors s) (s_undef s) (s_crash s).
Definition set_out l s := Sys (s_table s) (s_others s) (s_c s) (s_t s) (s_cfg s) (s_gen s) (s_run s) (s_running s) (s_error s) (s_socks s) l (s_known s) (s_inq s) (s_got s) (s_lost s) (s_late s) (s_errors s) (s_undef s) (s_crash s).
Definition set_known k s := Sys (s_table s) (s_others s) (s_c s) (s_t s) (s_cfg s) (s_gen s) (s_run s) (s_running s) (s_error s) (s_socks s) (s_out s) k (s_inq s) (s_got s) (s_lost s) (s_late s) (s_errors s) (s_undef s) (s_crash s).
Definition set_in q g l s := Sys (s_table s) (s_others s) (s_c s) (s_t s) (s_cfg s) (s_gen s) (s_run s) (s_running s) (s_error s) (s_socks s) (s_out s) (s_known s) q g l (s_late s) (s_errors s) (s_undef s) (s_crash s).
Definition set_late s := Sys (s_table s) (s_others s) (s_c s) (s_t s) (s_cfg s) (s_gen s) (s_run s) (s_running s) (s_error s) (s_socks s) (s_out s) (s_known s) (s_inq s) (s_got s) (s_lost s) true (s_errors s) (s_undef s) (s_crash s).
Definition set_others o s := Sys (s_table s) o (s_c s) (s_t s) (s_cfg s) (s_gen s) (s_run s) (s_running s) (s_error s) (s_socks s) (s_out s) (s_known s) (s_inq s) (s_got s) (s_lost s) (s_late s) (s_errors s) (s_undef s) (s_crash s).
Definition set_undef s := Sys (s_table s) (s_others s) (s_c s) (s_t s) (s_cfg s) (s_gen s) (s_run s) (s_running s) (s_error s) (s_socks s) (s_out s) (s_known s) (s_inq s) (s_got s) (s_lost s) (s_late s) (s_errors s) true (s_crash s).
Definition set_crash s := Sys (s_table s) (s_others s) (s_c s) (s_t s) (s_cfg s) (s_gen s) (s_run s) (s_running s) (s_error s) (s_socks s) (s_out s) (s_known s) (s_inq s) (s_got s) (s_lost s) (s_late s) (s_errors s) (s_undef s) true.

Inductive lab :=
| Start (f : cfg)                     (* FrameReceiverController.cpp:727-746: a new thread object; start() *)
| Spin                                (* a round of the loop in start() *)
| Stop                                (* stop(): run_thread_ = false *)
| Joined                              (* join() returns; cleanup; the object is deleted *)
| MainRecv (i : nat)                  (* FrameReceiverController.cpp:887-961: a message from a thread; a ROUTER socket takes turns, so not always the oldest *)
| Release (id : Z)                    (* lines 969-983: a release notification from the frame processor *)
| Thread (ok : bool)                  (* the thread makes its next step; for those that may fail, with this result *)
| Socket (fd : option Z) (opt conn : bool)  (* the thread makes the socket of its next port: descriptor, setsockopt, connect *)
| Tick | Report | Packet (n : nat) | Bytes (n : nat) | TakeIn   (* callbacks of the thread's reactor *)
| Others (o : list (Z * Z)) | Open (fd : Z) | Shut (fd : Z).    (* other programs; other parts of this one *)

(** The sockets are of the thread: FrameReceiverUDPRxThread.cpp:32-90, FrameReceiverTCPRxThread.cpp:29-97 (its local variable recv_socket_ hides the member, which stays -1),
    FrameReceiverZMQRxThread.cpp:31-46 (connect of the channel may throw zmq::error_t, which nobody catches). *)
Definition fail_init (t : table) (s : sys) : sys := set_t TCheck (set_error (set_table t s)).
Definition socket_step (fd : option Z) (opt conn : bool) (p : Z) (rest : list Z) (s : sys) : option sys :=
  match f_kind (s_cfg s) with
  | ZMQ => match fd with None => Some (if conn then set_t (TPorts rest) s else set_crash s) | Some _ => None end
  | k =>
    match fd with
    | None => Some (fail_init (s_table s) s)
    | Some d =>
      if negb (fresh d (s_table s)) then None else
      let leak := s_table s ++ [(d, Plain)] in
      if negb opt then Some (fail_init leak s) else
      match f_addr (s_cfg s) with
      | None => Some (fail_init leak s)
      | Some a =>
        match k with
        | UDP => if in_use a p (s_table s) (s_others s) then Some (fail_init leak s)
                 else Some (set_t (TPorts rest) (set_socks (s_socks s ++ [d]) (set_table (s_table s ++ [(d, Bound a p)]) s)))
        | _ => if conn then Some (set_t (TPorts rest) (set_socks (s_socks s ++ [d]) (set_table (s_table s ++ [(d, Conn)]) s))) else Some (fail_init leak s)
        end
      end
    end
  end.
(** cleanup_specific_service of the TCP thread closes the member; that of the ZMQ thread its channel *)
Definition cleanup (s : sys) : sys := match f_kind (s_cfg s) with TCP => set_table (shut (-1) (s_table s)) s | _ => s end.
Definition send (cap : nat) (m : note) (t : tpc) (s : sys) : option sys := if Nat.ltb (List.length (s_out s)) cap then Some (set_t t (set_out (s_out s ++ [m]) s)) else None.
(** One step; [None]: not possible now.  [late n]: what the shift of line 75 gives in round n: ++thread_retry_count >> 1000 is undefined for an unsigned int of 32 bits. *)
Definition rx_step (cap : nat) (late : N -> bool) (x : lab) (s : sys) : option sys :=
  if s_crash s then None else
  match x with
  | Start f =>
    match s_c s with
    | CIdle => Some (Sys (s_table s) (s_others s) (CSpin 0) TConnect f (S (s_gen s)) true false false [] (s_out s) (s_known s) [] (s_got s) (s_lost s) false (s_errors s) (s_undef s) false)
    | _ => None
    end
  | Spin =>
    match s_c s with
    | CSpin n => Some (if s_running s then set_c (CReady true) s else if s_error s then set_c (CReady false) (set_run false s)
                       else if late (n + 1)%N then set_late (set_c (CReady false) s) else set_c (CSpin (n + 1)) s)
    | _ => None
    end
  | Stop => match s_c s with CReady _ => Some (set_c CJoin (set_run false s)) | _ => None end
  | Joined => match s_c s, s_t s with CJoin, TDone => Some (set_c CIdle (cleanup s)) | _, _ => None end
  | MainRecv i =>
    match s_c s, nth_error (s_out s) i with
    | CJoin, _ | CSpin _, _ | _, None => None
    | _, Some m => let q := firstn i (s_out s) ++ skipn (S i) (s_out s) in Some (match m with NIdentity g => set_known (Some g) (set_out q s) | NOther => set_out q s end)
    end
  | Release id =>
    match s_c s with
    | CJoin | CSpin _ => None
    | _ => Some (if match s_known s, s_t s with Some g, TDone => false | Some g, _ => Nat.eqb g (s_gen s) | None, _ => false end
                 then set_in (s_inq s ++ [id]) (s_got s) (s_lost s) s else set_in (s_inq s) (s_got s) (s_lost s ++ [id]) s)
    end
  | Thread ok =>
    match s_t s with
    | TConnect => Some (if ok then set_t (TPorts (f_ports (s_cfg s))) s else set_t TDone (set_error s))
    | TPorts [] => Some (set_t TCheck s)
    | TCheck => Some (if s_error s then set_t TDone s else set_t TAnnounce (set_running s))
    | TAnnounce => send cap (NIdentity (s_gen s)) TLoop s
    | TSend => send cap NOther TLoop s
    | TClean => Some (set_t TDone (set_in [] (s_got s) (s_lost s ++ s_inq s) (set_socks [] (set_table (fold_left (fun t fd => shut fd t) (s_socks s) (s_table s)) s))))
    | _ => None
    end
  | Socket fd opt conn => match s_t s with TPorts (p :: rest) => socket_step fd opt conn p rest s | _ => None end
  | Tick => match s_t s with TLoop => Some (if s_run s then s else set_t TClean s) | _ => None end
  | Report => match s_t s with TLoop => Some (set_t TSend s) | _ => None end
  | Packet n =>
    match s_t s with
    | TLoop => if same_kind (f_kind (s_cfg s)) (f_decoder (s_cfg s)) then match f_kind (s_cfg s), n with TCP, S _ => Some (set_t (TRead n) s) | _, _ => Some (set_t TSend s) end
               else Some (set_undef s)
    | _ => None
    end
  | Bytes k => match s_t s with TRead n => if Nat.leb 1 k && Nat.leb k n then Some (set_t (if Nat.eqb k n then TSend else TRead (n - k)) s) else None | _ => None end
  | TakeIn => match s_t s, s_inq s with TLoop, id :: q => Some (set_in q (s_got s ++ [id]) (s_lost s) s) | _, _ => None end
  | Others o => if existsb (fun x => existsb (fun e => match snd e with Bound b q => clash (fst x) (snd x) b q | _ => false end) (s_table s)) o then None else Some (set_others o s)
  | Open fd => if fresh fd (s_table s) then Some (set_table (s_table s ++ [(fd, Foreign)]) s) else None
  | Shut fd => match find (fun e => (fst e =? fd)%Z) (s_table s) with Some (_, Foreign) => Some (set_table (shut fd (s_table s)) s) | _ => None end
  end.
Fixpoint rx_go (cap : nat) (late : N -> bool) (l : list lab) (s : sys) : option sys :=
  match l with [] => Some s | x :: r => match rx_step cap late x s with Some t => rx_go cap late r t | None => None end end.
