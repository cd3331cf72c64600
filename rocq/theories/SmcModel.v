(** The frame processor's side of the shared memory.  frameProcessor/src/SharedMemoryController.cpp, SharedBufferFrame.cpp; creation and destruction by FrameProcessorController.cpp:875-920.
    Not modelled: logging; plugin threads and the reactor thread send over the same socket without a lock (each step here is atomic); failing sends. *)
From Coq Require Import String Ascii.
From Verif Require Import Base StrOrder JsonModel JsonReadModel JsonDoubleModel ShmModel.
Local Open Scope string_scope.
Local Open Scope list_scope.
Local Open Scope Z_scope.

(** SharedMemoryController.h:41-75.  [k_map]: sbm_ with the number of the mapping; [k_conf]: sharedBufferConfigured_; [k_def]: sharedBufferConfigRequestDeferred_; [k_cbs]: callbacks_, name and plugin. *)
Record ctl := Ctl { k_map : option (nat * mgr); k_conf : bool; k_def : bool; k_cbs : smap nat }.
(** A SharedBufferFrame with its number; data_ptr_ as offset [f_addr] in mapping [f_map]; shared_channel_ as the number of the controller that owns the channel; [f_no]: frame number of the meta data; [f_refs]: shared pointers *)
Record frame := Frame { f_id : nat; f_ctl : nat; f_map : nat; f_buf : Z; f_no : Z; f_addr : Z; f_size : Z; f_refs : nat }.
(** Frame made; put on the queue of a plugin; end-of-acquisition frame on the queue of a plugin; texts sent on txChannel_: requests and releases *)
Inductive effect := EFrame (f : frame) | EQueue (plugin f : nat) | EEoa (plugin : nat) | EAsk (c : nat) (t : list ascii) | EGive (c : nat) (t : list ascii).
(** [z_ctl]: sharedMemController_ with its number; [z_poll]: the controller whose rxChannel_ is in the reactor's poll array; [z_ghost]: the reactor has a channel of an object whose constructor threw;
    [z_timers]: deferred requests registered with the reactor, by controller; [z_frames]: frames that exist; [z_next]: next number; [z_out]: effects so far *)
Record smc := Smc { z_ctl : option (nat * ctl); z_poll : option nat; z_ghost : bool; z_timers : list nat; z_frames : list frame; z_next : nat; z_out : list effect }.
Definition smc_init : smc := Smc None None false [] [] 0 [].
(** The outside during a step: shared memory, clock, texts of times *)
Record env := Env { e_shm : shm; e_now : Z; e_clock : clock }.
(** SharedBufferManagerException, std::out_of_range of an IpcMessage: neither is caught, the thread of the reactor and with it the process end *)
Inductive kexc := KShm (e : sbexc) | KIpc (e : ipcexc).

Definition set_ctl (x : option (nat * ctl)) (s : smc) : smc := Smc x (z_poll s) (z_ghost s) (z_timers s) (z_frames s) (z_next s) (z_out s).
Definition set_frames (l : list frame) (s : smc) : smc := Smc (z_ctl s) (z_poll s) (z_ghost s) (z_timers s) l (z_next s) (z_out s).
Definition add_out (l : list effect) (s : smc) : smc := Smc (z_ctl s) (z_poll s) (z_ghost s) (z_timers s) (z_frames s) (z_next s) (z_out s ++ l).
Definition up (s : smc) : smc := Smc (z_ctl s) (z_poll s) (z_ghost s) (z_timers s) (z_frames s) (S (z_next s)) (z_out s).

(** Texts: the IpcMessage with parameters set one after the other, encoded *)
Fixpoint params (m : msg) (l : list (string * value)) : outcome ipcexc msg := match l with [] => Ret m | (n, y) :: r => let '(m1, o) := set_param m n y in match o with Ret _ => params m1 r | Throw e => Throw e | Undef => Undef end end.
Definition text (e : env) (t : msg_type) (v : msg_val) (l : list (string * value)) : outcome ipcexc (list ascii) := match params (new_msg t v true (e_now e)) l with Ret m => encode_text (e_clock e) m | Throw x => Throw x | Undef => Undef end.
(** ~SharedBufferFrame, SharedBufferFrame.cpp:31-40, when the last shared pointer goes: the channel is the one of the controller that made the frame *)
Definition give_back (e : env) (f : frame) (s : smc) : outcome kexc smc :=
  match text e TNotify VFrameRelease [("frame", XUint64 (wrap64 (f_no f))); ("buffer_id", XUint64 (f_buf f))] with
  | Ret t => match z_ctl s with Some (c, _) => if Nat.eqb c (f_ctl f) then Ret (add_out [EGive c t] s) else Undef | None => Undef end
  | Throw x => Throw (KIpc x)
  | Undef => Undef
  end.

(** The destructor, lines 80-88 *)
Definition gone (s : smc) : smc := set_ctl None s.
(** What connect does: both channels, the first fails, the second fails *)
Inductive connects := Both | FirstFails | SecondFails.
(** setupFrameReceiverInterface, FrameProcessorController.cpp:883-899, when the endpoints are new; the constructor, lines 31-75.  The rx channel is registered with the reactor before the tx channel is connected;
    nothing removes it when the constructor throws. *)
Definition setup (o : connects) (s : smc) : outcome kexc smc :=
  let s0 := gone s in
  match o with
  | FirstFails => Ret s0
  | SecondFails => Ret (Smc (z_ctl s0) (z_poll s0) true (z_timers s0) (z_frames s0) (z_next s0) (z_out s0))
  | Both => let c := z_next s0 in Ret (Smc (Some (c, Ctl None false true [])) (z_poll s0) (z_ghost s0) (z_timers s0 ++ [c]) (z_frames s0) (S c) (z_out s0))
  end.

(** requestSharedBufferConfig(false), lines 134-149, called by the timer *)
Definition request_config (e : env) (c : nat) (k : ctl) (s : smc) : outcome kexc smc :=
  let s1 := set_ctl (Some (c, Ctl (k_map k) (k_conf k) false (k_cbs k))) s in
  if k_def k && k_conf k then Ret s1
  else match text e TCmd VBufferConfigRequest [] with Ret t => Ret (add_out [EAsk c t] s1) | Throw x => Throw (KIpc x) | Undef => Undef end.
(** setSharedBufferManager, lines 95-115 *)
Definition set_manager (e : env) (n : string) (c : nat) (k : ctl) (s : smc) : outcome kexc smc :=
  match attach n (e_shm e) with
  | Ret g => Ret (up (set_ctl (Some (c, Ctl (Some (z_next s, g)) true (k_def k) (k_cbs k))) s))
  | Throw x => Throw (KShm x)
  | Undef => Undef
  end.
(** Lines 180-199: a frame for buffer [b] is made and put on all queues; without callbacks it is destroyed at the end of the block. *)
Definition new_frame (e : env) (b no : Z) (c : nat) (k : ctl) (j : nat) (g : mgr) (s : smc) : outcome kexc smc :=
  match address g (b mod 2 ^ 32) (e_shm e) with
  | Ret a =>
    match buf_size g (e_shm e) with
    | Ret z =>
      let f := Frame (z_next s) c j (wrap64 b) no a z (List.length (k_cbs k)) in
      let s1 := add_out (EFrame f :: map (fun p => EQueue (snd p) (f_id f)) (k_cbs k)) (up s) in
      match k_cbs k with [] => give_back e f s1 | _ => Ret (set_frames (z_frames s1 ++ [f]) s1) end
    | Throw x => Throw (KShm x)
    | Undef => Undef
    end
  | Throw x => Throw (KShm x)
  | Undef => Undef
  end.
(** get_param<int>(n, d) *)
Definition int_or (m : msg) (n : string) (d : Z) : outcome ipcexc Z := bind (get_param_or GInt m n (RInt d)) (fun r => Ret (match r with RInt z => z | _ => 0 end)).
(** catch (IpcMessageException&): std::out_of_range is another class *)
Definition caught {A} (o : outcome ipcexc A) (s : smc) (f : A -> outcome kexc smc) : outcome kexc smc := match o with Ret a => f a | Throw ERange => Throw (KIpc ERange) | Throw _ => Ret s | Undef => Undef end.
(** handleRxChannel, lines 161-238 *)
Definition handle (e : env) (t : list ascii) (c : nat) (k : ctl) (s : smc) : outcome kexc smc :=
  caught (msg_of_text (e_clock e) t true) s (fun m =>
  match g_type m, g_val m with
  | TNotify, VFrameReady =>
    caught (int_or m "buffer_id" (-1)) s (fun b =>
    if b =? -1 then Ret s
    else match k_map k with
      | None => Ret s
      | Some (j, g) => caught (int_or m "frame" 0) s (fun no => new_frame e b no c k j g s)
      end)
  | TNotify, VBufferConfig =>
    caught (bind (get_param GStr m "shared_buffer_name") (fun r => Ret (match r with RStr n => n | _ => "" end))) s (fun n => set_manager e n c k s)
  | _, _ => Ret s
  end).

Definition find_frame (f : nat) (s : smc) : option frame := List.find (fun x => Nat.eqb (f_id x) f) (z_frames s).
Definition put_frame (x : frame) (s : smc) : smc := set_frames (map (fun y => if Nat.eqb (f_id y) (f_id x) then x else y) (z_frames s)) s.
Definition del_frame (f : nat) (s : smc) : smc := set_frames (filter (fun y => negb (Nat.eqb (f_id y) f)) (z_frames s)) s.

Inductive op :=
| KSetup (o : connects) | KClose                (* by the controller of the frame processor *)
| KPoll                                         (* the reactor rebuilds its poll array, IpcReactor.cpp:256-259, 356-400 *)
| KMessage (c : nat) (t : list ascii)           (* it calls handleRxChannel of controller c *)
| KTimer (c : nat)                              (* the deferred request of controller c *)
| KRegister (n : string) (p : nat) | KRemove (n : string) | KEoa  (* lines 249-277, 296-306 *)
| KShare (f : nat) | KDrop (f : nat)            (* one more or less shared pointer to frame f *)
| KNumber (f : nat) (no : Z)                    (* a plugin sets the frame number *)
| KRead (f : nat).                              (* a plugin uses the data of frame f *)

(** What can happen in state [s] *)
Definition possible (o : op) (s : smc) : bool :=
  match o with
  | KSetup _ | KPoll => true
  | KClose | KRegister _ _ | KRemove _ | KEoa => match z_ctl s with Some _ => true | None => false end
  | KMessage c _ => match z_poll s with Some d => Nat.eqb c d | None => false end
  | KTimer c => existsb (Nat.eqb c) (z_timers s)
  | KShare f | KDrop f | KNumber f _ | KRead f => match find_frame f s with Some _ => true | None => false end
  end.
(** Calls on the controller that exists; a call on one that does not is undefined. *)
Definition on (c : nat) (s : smc) (h : ctl -> outcome kexc smc) : outcome kexc smc := match z_ctl s with Some (d, k) => if Nat.eqb c d then h k else Undef | None => Undef end.
Fixpoint drop_first (c : nat) (l : list nat) : list nat := match l with [] => [] | d :: r => if Nat.eqb c d then r else d :: drop_first c r end.
(** The data of a frame are there: its mapping is the one of the controller, and they lie in it and in the object. *)
Definition readable (e : env) (f : frame) (s : smc) : bool :=
  match z_ctl s with
  | Some (_, k) => match k_map k with
    | Some (j, g) => Nat.eqb j (f_map f) && (0 <=? f_addr f) && (f_addr f + f_size f <=? g_region g) && (f_addr f + f_size f <=? ob_size (s_objs (e_shm e) (g_obj g)))
    | None => false
    end
  | None => false
  end.
Definition with_refs (n : nat) (f : frame) : frame := Frame (f_id f) (f_ctl f) (f_map f) (f_buf f) (f_no f) (f_addr f) (f_size f) n.
Definition with_number (n : Z) (f : frame) : frame := Frame (f_id f) (f_ctl f) (f_map f) (f_buf f) n (f_addr f) (f_size f) (f_refs f).
Definition on_frame (f : nat) (s : smc) (h : frame -> outcome kexc smc) : outcome kexc smc := match find_frame f s with Some x => h x | None => Ret s end.
Definition kstep (e : env) (o : op) (s : smc) : outcome kexc smc :=
  match o with
  | KSetup x => setup x s
  | KClose => Ret (gone s)
  | KPoll => if z_ghost s then Undef else Ret (Smc (z_ctl s) (option_map fst (z_ctl s)) (z_ghost s) (z_timers s) (z_frames s) (z_next s) (z_out s))
  | KMessage c t => on c s (fun k => handle e t c k s)
  | KTimer c =>
    let s1 := Smc (z_ctl s) (z_poll s) (z_ghost s) (drop_first c (z_timers s)) (z_frames s) (z_next s) (z_out s) in
    on c s1 (fun k => request_config e c k s1)
  | KRegister n p => Ret (match z_ctl s with Some (c, k) => match sm_get (k_cbs k) n with Some _ => s | None => set_ctl (Some (c, Ctl (k_map k) (k_conf k) (k_def k) (sm_put (k_cbs k) n p))) s end | None => s end)
  | KRemove n => Ret (match z_ctl s with Some (c, k) => set_ctl (Some (c, Ctl (k_map k) (k_conf k) (k_def k) (sm_del (k_cbs k) n))) s | None => s end)
  | KEoa => Ret (match z_ctl s with Some (_, k) => add_out (map (fun p => EEoa (snd p)) (k_cbs k)) s | None => s end)
  | KShare f => on_frame f s (fun x => Ret (put_frame (with_refs (S (f_refs x)) x) s))
  | KDrop f => on_frame f s (fun x => match f_refs x with S (S n) => Ret (put_frame (with_refs (S n) x) s) | _ => give_back e x (del_frame f s) end)
  | KNumber f no => on_frame f s (fun x => Ret (put_frame (with_number no x) s))
  | KRead f => on_frame f s (fun x => if readable e x s then Ret s else Undef)
  end.
(** status, lines 284-291 *)
Definition configured (s : smc) : option bool := option_map (fun p => k_conf (snd p)) (z_ctl s).

Inductive krun : list (env * op) -> smc -> Prop :=
| kr_init : krun [] smc_init
| kr_step l s e o s' : krun l s -> possible o s = true -> kstep e o s = Ret s' -> krun (l ++ [(e, o)]) s'.

(** FrameReceiverRxThread::frame_ready, FrameReceiverRxThread.cpp:410-420: the text sent to the main thread of the frame receiver *)
Definition frame_ready (e : env) (buffer number : Z) : outcome ipcexc (list ascii) := text e TNotify VFrameReady [("frame", XInt number); ("buffer_id", XInt buffer)].
(** FrameReceiverRxThread.cpp:306-320: the buffer that the receiver thread takes back for a message of the main thread, if any *)
Definition taken_back (c : clock) (t : list ascii) : option Z :=
  match msg_of_text c t true with
  | Ret m => match g_type m, g_val m with TNotify, VFrameRelease => match int_or m "buffer_id" (-1) with Ret b => if b =? -1 then None else Some b | _ => None end | _, _ => None end
  | _ => None
  end.
