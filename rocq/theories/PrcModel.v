(** The controller of the frame processor.  frameProcessor/src/FrameProcessorController.cpp.  The reactor's thread runs all of it but [callback].
    Not modelled: logging (its arguments are only evaluated at high debug levels), the channels in the reactor, failing sends, start and shutdown. *)
From Coq Require Import String Ascii.
From Verif Require Import Base StrOrder PluginModel CtrlModel JsonModel JsonReadModel JsonDoubleModel.
Local Open Scope string_scope.
Local Open Scope list_scope.
Local Open Scope Z_scope.

(** Exceptions of plugins and libraries: IpcMessageException (std::out_of_range for ERange), std::runtime_error, any other.  [PDeep]: the stack is used up. *)
Inductive fault := XIpc (e : ipcexc) | XRun (what : string) | XOther.
Inductive pexc := PFault (f : fault) | PDeep.
(** What others see: endpoints of the control and meta channels, end of acquisition put on queues, plugin threads started, the main thread woken to shut down, a reply to a client,
    a reply without destination (dropped by the ROUTER socket), a published meta message of two parts *)
Inductive effect :=
| FBind (e : string) | FBindMeta (e : string) | FEoa (to : list string) | FStart (index : string) | FExit
| FReply (client : string) (doc : list (string * json)) | FNobody (doc : list (string * json)) | FMeta (header : list ascii) (data : list Z).

Section State.
  (** Objects of plugin classes *)
  Context {P : Type}.
  (** FrameProcessorController.h:131-180.  [p_limit]: shutdownFrameCount, not initialised; [p_debug]: debug_level of the process; [p_bound], [p_metabound]: endpoints the two sockets are bound to;
      [p_graph]: connections between plugins_ and sharedMemController_, and the endpoints of the latter; [p_objs]: the plugins; [p_classes]: names in the factory map of ClassLoader;
      [p_reply]: the local reply of the handler; [p_out]: effects so far *)
  Record prc := Prc { p_master : string; p_limit : Z; p_total : Z; p_debug : Z; p_ctrl : string; p_bound : list string; p_meta : string; p_metabound : list string; p_graph : ctrl; p_objs : smap P; p_stored : smap (list ascii); p_classes : list string; p_reply : msg; p_out : list effect }.
  Definition w_master (v : string) (r : prc) : prc := Prc v (p_limit r) (p_total r) (p_debug r) (p_ctrl r) (p_bound r) (p_meta r) (p_metabound r) (p_graph r) (p_objs r) (p_stored r) (p_classes r) (p_reply r) (p_out r).
  Definition w_limit (v : Z) (r : prc) : prc := Prc (p_master r) v (p_total r) (p_debug r) (p_ctrl r) (p_bound r) (p_meta r) (p_metabound r) (p_graph r) (p_objs r) (p_stored r) (p_classes r) (p_reply r) (p_out r).
  Definition w_total (v : Z) (r : prc) : prc := Prc (p_master r) (p_limit r) v (p_debug r) (p_ctrl r) (p_bound r) (p_meta r) (p_metabound r) (p_graph r) (p_objs r) (p_stored r) (p_classes r) (p_reply r) (p_out r).
  Definition w_debug (v : Z) (r : prc) : prc := Prc (p_master r) (p_limit r) (p_total r) v (p_ctrl r) (p_bound r) (p_meta r) (p_metabound r) (p_graph r) (p_objs r) (p_stored r) (p_classes r) (p_reply r) (p_out r).
  Definition w_ctrl (v : string) (r : prc) : prc := Prc (p_master r) (p_limit r) (p_total r) (p_debug r) v (p_bound r) (p_meta r) (p_metabound r) (p_graph r) (p_objs r) (p_stored r) (p_classes r) (p_reply r) (p_out r).
  Definition w_bound (v : list string) (r : prc) : prc := Prc (p_master r) (p_limit r) (p_total r) (p_debug r) (p_ctrl r) v (p_meta r) (p_metabound r) (p_graph r) (p_objs r) (p_stored r) (p_classes r) (p_reply r) (p_out r).
  Definition w_meta (v : string) (r : prc) : prc := Prc (p_master r) (p_limit r) (p_total r) (p_debug r) (p_ctrl r) (p_bound r) v (p_metabound r) (p_graph r) (p_objs r) (p_stored r) (p_classes r) (p_reply r) (p_out r).
  Definition w_metabound (v : list string) (r : prc) : prc := Prc (p_master r) (p_limit r) (p_total r) (p_debug r) (p_ctrl r) (p_bound r) (p_meta r) v (p_graph r) (p_objs r) (p_stored r) (p_classes r) (p_reply r) (p_out r).
  Definition w_graph (v : ctrl) (r : prc) : prc := Prc (p_master r) (p_limit r) (p_total r) (p_debug r) (p_ctrl r) (p_bound r) (p_meta r) (p_metabound r) v (p_objs r) (p_stored r) (p_classes r) (p_reply r) (p_out r).
  Definition w_objs (v : smap P) (r : prc) : prc := Prc (p_master r) (p_limit r) (p_total r) (p_debug r) (p_ctrl r) (p_bound r) (p_meta r) (p_metabound r) (p_graph r) v (p_stored r) (p_classes r) (p_reply r) (p_out r).
  Definition w_stored (v : smap (list ascii)) (r : prc) : prc := Prc (p_master r) (p_limit r) (p_total r) (p_debug r) (p_ctrl r) (p_bound r) (p_meta r) (p_metabound r) (p_graph r) (p_objs r) v (p_classes r) (p_reply r) (p_out r).
  Definition w_classes (v : list string) (r : prc) : prc := Prc (p_master r) (p_limit r) (p_total r) (p_debug r) (p_ctrl r) (p_bound r) (p_meta r) (p_metabound r) (p_graph r) (p_objs r) (p_stored r) v (p_reply r) (p_out r).
  Definition w_reply (v : msg) (r : prc) : prc := Prc (p_master r) (p_limit r) (p_total r) (p_debug r) (p_ctrl r) (p_bound r) (p_meta r) (p_metabound r) (p_graph r) (p_objs r) (p_stored r) (p_classes r) v (p_out r).
  Definition w_out (v : list effect) (r : prc) : prc := Prc (p_master r) (p_limit r) (p_total r) (p_debug r) (p_ctrl r) (p_bound r) (p_meta r) (p_metabound r) (p_graph r) (p_objs r) (p_stored r) (p_classes r) (p_reply r) v.

  (** Virtual functions of a plugin: its new state, the reply it was given a reference to, and how the call ended.  The rest: dlopen with the text of the error or the classes that
      register; making an object and naming it; connect_meta_channel; bind of the control and meta sockets with the text of the error, given what is bound; the constructor of SharedMemoryController;
      its flag sharedBufferConfigured_; clock; version of the application *)
  Notation result A := (P * msg * outcome fault A)%type (only parsing).
  Record env := Env {
    v_configure : P -> msg -> msg -> result unit; v_request : P -> msg -> result unit; v_execute : P -> string -> msg -> result unit; v_status : P -> msg -> result unit;
    v_commands : P -> list string; v_reset : P -> P * bool; v_reset_perf : P -> P; v_clear : P -> P; v_errors : P -> list string; v_warnings : P -> list string;
    v_perf : P -> Z * Z * Z; v_vers : P -> Z * Z * Z * string * string;
    v_dlopen : string -> string + list string; v_make : string -> string -> option P; v_meta : string -> option fault;
    v_bind : list string -> string -> option string; v_bind_meta : list string -> string -> option string; v_shm : string -> string -> option fault; v_shm_ok : bool;
    v_now : Z; v_clock : clock; v_major : Z; v_minor : Z; v_patch : Z; v_short : string; v_full : string }.

  (** Statements that change the state and may throw *)
  Definition M (A : Type) := prc -> prc * outcome pexc A.
  Definition ret {A} (a : A) : M A := fun s => (s, Ret a).
  Definition raise {A} (e : fault) : M A := fun s => (s, Throw (PFault e)).
  Definition overflow {A} : M A := fun s => (s, Throw PDeep).
  Definition seq {A B} (a : M A) (f : A -> M B) : M B := fun s => let '(s1, o) := a s in match o with Ret x => f x s1 | Throw e => (s1, Throw e) | Undef => (s1, Undef) end.
  Definition get {A} (f : prc -> A) : M A := fun s => (s, Ret (f s)).
  Definition change (f : prc -> prc) : M unit := fun s => (f s, Ret tt).
  Definition when (b : bool) (a : M unit) : M unit := if b then a else ret tt.
  Definition lift {A} (o : outcome ipcexc A) : M A := fun s => (s, match o with Ret a => Ret a | Throw e => Throw (PFault (XIpc e)) | Undef => Undef end).
  Fixpoint each {A} (l : list A) (f : A -> M unit) : M unit := match l with [] => ret tt | a :: r => seq (f a) (fun _ => each r f) end.
  Definition tell (e : effect) : M unit := change (fun s => w_out (p_out s ++ [e]) s).
End State.
Arguments prc : clear implicits.
Arguments env : clear implicits.
Arguments M : clear implicits.
Notation "x <- a ;; b" := (seq a (fun x => b)) (at level 61, a at next level, right associativity).
Notation "a ;; b" := (seq a (fun _ => b)) (at level 61, right associativity).

Section Controller.
  Context {P : Type}.
  Variable v : env P.
  Notation M := (M P).

  (** set_param on the reply; its attributes *)
  Definition put (n : string) (x : value) : M unit :=
    fun s => let '(m, o) := set_param (p_reply s) n x in (w_reply m s, match o with Ret a => Ret a | Throw e => Throw (PFault (XIpc e)) | Undef => Undef end).
  Fixpoint puts (l : list (string * value)) : M unit := match l with [] => ret tt | (n, x) :: r => put n x ;; puts r end.
  Definition reply_type (t : msg_type) : M unit := change (fun s => let m := p_reply s in w_reply (Msg (g_strict m) (g_doc m) t (g_val m) (g_id m) (g_time m)) s).
  (** get_param<std::string>, get_param<unsigned int> *)
  Definition str_param (m : msg) (n : string) : M string := lift (bind (get_param GStr m n) (fun r => Ret (match r with RStr s => s | _ => "" end))).
  Definition uint_param (m : msg) (n : string) : M Z := lift (bind (get_param GUint m n) (fun r => Ret (match r with RInt z => z | _ => 0 end))).
  (** has_param of several names, joined by && *)
  Fixpoint has_all (m : msg) (l : list string) : M bool := match l with [] => ret true | n :: r => h <- lift (has_param m n) ;; if h : bool then has_all m r else ret false end.
  (** IpcMessage(config.get_param<const rapidjson::Value&>(name)) *)
  Definition section (m : msg) (n : string) : M msg := x <- lift (get_ref m n) ;; ret (msg_of_value x TIllegal VIllegal true (v_now v)).

  (** A call of a plugin of plugins_ *)
  Definition call (i : string) (f : P -> msg -> P * msg * outcome fault unit) : M unit := fun s =>
    match sm_get (p_objs s) i with
    | None => (s, Ret tt)
    | Some o => let '(o', r, x) := f o (p_reply s) in (w_reply r (w_objs (sm_put (p_objs s) i o') s), match x with Ret a => Ret a | Throw e => Throw (PFault e) | Undef => Undef end)
    end.
  Definition touch (i : string) (f : P -> P) : M unit := call i (fun o r => (f o, r, Ret tt)).
  Definition ask {A} (i : string) (d : A) (f : P -> A) : M A := get (fun s => match sm_get (p_objs s) i with Some o => f o | None => d end).
  (** Loops over plugins_, in the order of the names *)
  Definition each_plugin (f : string -> M unit) : M unit := l <- get (fun s => map fst (p_objs s)) ;; each l f.

  (** Connections, lines 739-803 *)
  Definition refused_text (c : cmd) (e : refused) : string :=
    match c, e with
    | Connect i _, ENoReceiver => "Cannot connect " ++ i ++ " to frame_receiver, frame_receiver is not configured"
    | Connect i _, _ => "Cannot connect plugin with index = " ++ i ++ ", plugin isn't loaded"
    | Disconnect i _, _ => "Cannot disconnect plugin with index = " ++ i ++ ", plugin isn't loaded"
    | _, _ => "" end.
  Definition wire (c : cmd) : M unit := fun s =>
    match do_cmd c (p_graph s) with Ret g => (w_graph g s, Ret tt) | Throw e => (s, Throw (PFault (XRun (refused_text c e)))) | Undef => (s, Undef) end.

  (** loadPlugin, lines 700-730; load_class, ClassLoader.h:62-94 *)
  Definition load_class (class lib index : string) : M (option P) :=
    known <- get (fun s => existsb (String.eqb class) (p_classes s)) ;;
    (if known : bool then ret tt
     else match v_dlopen v lib with inl w => raise (XRun w) | inr l => change (fun s => w_classes (l ++ p_classes s) s) end) ;;
    known <- get (fun s => existsb (String.eqb class) (p_classes s)) ;;
    ret (if known : bool then v_make v class index else None).
  Definition load_plugin (index name library : string) : M unit :=
    p <- get (fun s => sm_get (k_plugins (p_graph s)) index) ;;
    match p with
    | Some _ => ret tt
    | None =>
      o <- load_class name library index ;;
      match o with
      | None => raise (XRun ("Cannot load plugin with index [" ++ index ++ "], name [" ++ name ++ "], check library"))
      | Some o =>
        match v_meta v index with
        | Some e => raise e
        | None => change (fun s => w_objs (sm_put (p_objs s) index o) s) ;; wire (Load index name true) ;; tell (FStart index)
        end
      end
    end.

  (** configurePlugin, lines 636-687 *)
  Definition plugin_load (m : msg) : M unit :=
    h <- lift (has_param m "load") ;;
    when h (
      c <- section m "load" ;;
      h <- has_all c ["name"; "index"; "library"] ;;
      when h (i <- str_param c "index" ;; n <- str_param c "name" ;; l <- str_param c "library" ;; load_plugin i n l)).
  Definition plugin_connect (m : msg) : M unit :=
    h <- lift (has_param m "connect") ;;
    when h (
      c <- section m "connect" ;;
      h <- has_all c ["connection"; "index"] ;;
      when h (i <- str_param c "index" ;; n <- str_param c "connection" ;; wire (Connect i n))).
  Definition plugin_disconnect (m : msg) : M unit :=
    h <- lift (has_param m "disconnect") ;;
    when h (fun s =>
      match (c <- section m "disconnect" ;;
             h <- has_all c ["connection"; "index"] ;;
             when h (i <- str_param c "index" ;; n <- str_param c "connection" ;; wire (Disconnect i n))) s with
      | (s1, Throw (PFault (XIpc ERange))) => (s1, Throw (PFault (XIpc ERange)))
      | (s1, Throw (PFault (XIpc _))) => (i <- str_param m "disconnect" ;; when (String.eqb i "all") (wire DisconnectAll)) s1
      | r => r
      end).
  Definition configure_plugin (m : msg) : M unit := plugin_load m ;; plugin_connect m ;; plugin_disconnect m.

  (** setupControlInterface, lines 922-940; setupMetaTxInterface, lines 983-995 *)
  Definition setup_control (e : string) : M unit :=
    b <- get p_bound ;;
    match v_bind v b e with Some w => raise (XRun w) | None => change (fun s => w_ctrl e (w_bound (p_bound s ++ [e]) s)) ;; tell (FBind e) end.
  Definition setup_meta (e : string) : M unit :=
    b <- get p_metabound ;;
    match v_bind_meta v b e with Some w => raise (XRun w) | None => change (fun s => w_meta e (w_metabound (p_metabound s ++ [e]) s)) ;; tell (FBindMeta e) end.
  (** setupFrameReceiverInterface, lines 875-902: the old object is gone when the constructor of the new one throws. *)
  Definition setup_receiver (pub sub : string) : M unit :=
    g <- get p_graph ;;
    if match k_shm g with Some _ => String.eqb pub (fst (k_ends g)) && String.eqb sub (snd (k_ends g)) | None => false end then ret tt
    else match v_shm v pub sub with
      | Some e => change (fun s => w_graph (set_shm None g) s) ;; raise e
      | None => wire (Setup pub sub)
      end.

  (** configure, lines 371-498 *)
  Definition set_master (m : msg) : M unit := h <- lift (has_param m "hdf/master") ;; when h (x <- str_param m "hdf/master" ;; change (w_master x)).
  Definition clear_errors (m : msg) : M unit := h <- lift (has_param m "clear_errors") ;; when h (each_plugin (fun i => touch i (v_clear v))).
  Definition set_frames (m : msg) : M unit := h <- lift (has_param m "frames") ;; when h (n <- uint_param m "frames" ;; when (negb (n =? 0)) (change (w_limit (i32 n)))).
  Definition inject (m : msg) : M unit := h <- lift (has_param m "inject_eoa") ;; when h (g <- get p_graph ;; match k_shm g with Some _ => tell (FEoa (handed_over g)) | None => ret tt end).
  Definition set_debug (m : msg) : M unit := h <- lift (has_param m "debug_level") ;; when h (n <- uint_param m "debug_level" ;; change (w_debug n)).
  Definition set_ctrl (m : msg) : M unit := h <- lift (has_param m "ctrl_endpoint") ;; when h (e <- str_param m "ctrl_endpoint" ;; setup_control e).
  Definition set_meta (m : msg) : M unit := h <- lift (has_param m "meta_endpoint") ;; when h (e <- str_param m "meta_endpoint" ;; setup_meta e).
  Definition set_plugin (m : msg) : M unit := h <- lift (has_param m "plugin") ;; when h (c <- section m "plugin" ;; configure_plugin c).
  Definition set_receiver (m : msg) : M unit :=
    h <- lift (has_param m "fr_setup") ;;
    when h (
      c <- section m "fr_setup" ;;
      h <- has_all c ["fr_release_cnxn"; "fr_ready_cnxn"] ;;
      when h (p <- str_param c "fr_release_cnxn" ;; q <- str_param c "fr_ready_cnxn" ;; setup_receiver p q)).
  Definition store (m : msg) : M unit :=
    h <- lift (has_param m "store") ;;
    when h (
      c <- section m "store" ;;
      h <- has_all c ["index"; "value"] ;;
      when h (i <- str_param c "index" ;; x <- lift (get_ref c "value") ;; change (fun s => w_stored (sm_put (p_stored s) i (cut (fst (emit x)))) s))).
  (** Parse leaves a null value when it fails. *)
  Definition stored_messages (t : list ascii) : list json := match parse t with Some (JArr l) => l | Some x => [x] | None => [JNull] end.
  Definition run_stored (self : msg -> M unit) (m : msg) : M unit :=
    h <- lift (has_param m "execute") ;;
    when h (
      c <- section m "execute" ;;
      h <- lift (has_param c "index") ;;
      when h (
        i <- str_param c "index" ;;
        t <- get (fun s => sm_get (p_stored s) i) ;;
        match t with
        | None => ret tt
        | Some t => each (stored_messages t) (fun x => self (msg_of_value x TCmd VConfigure true (v_now v)))
        end)).
  Definition pass_on (m : msg) : M unit :=
    each_plugin (fun i =>
      h <- lift (has_param m i) ;;
      when h (x <- lift (get_ref m i) ;; call i (fun o r => v_configure v o (msg_of_value x (g_type m) (g_val m) true (v_now v)) r))).
  Definition configure_once (self : msg -> M unit) (m : msg) : M unit :=
    set_master m ;; clear_errors m ;; set_frames m ;; inject m ;; set_debug m ;; set_ctrl m ;; set_meta m ;; set_plugin m ;; set_receiver m ;; store m ;; run_stored self m ;; pass_on m.
  (** [n]: how many calls of configure fit on the stack *)
  Fixpoint configure (n : nat) (m : msg) : M unit := match n with O => overflow | S k => configure_once (configure k) m end.

  (** requestConfiguration, lines 508-527 *)
  Definition request_configuration : M unit :=
    e <- get p_ctrl ;; f <- get p_meta ;; g <- get p_graph ;;
    puts [("ctrl_endpoint", XStr e); ("meta_endpoint", XStr f); ("fr_setup/fr_ready_cnxn", XStr (snd (k_ends g))); ("fr_setup/fr_release_cnxn", XStr (fst (k_ends g)))] ;;
    each_plugin (fun i => call i (v_request v)).
  (** execute, lines 543-569 *)
  Fixpoint commands (m : msg) (l : list string) (present : bool) : M bool :=
    match l with
    | [] => ret present
    | i :: r =>
      h <- lift (has_param m i) ;;
      p <- (if h : bool then
              x <- lift (get_ref m i) ;;
              let c := msg_of_value x (g_type m) (g_val m) true (v_now v) in
              h <- lift (has_param c "command") ;;
              if h : bool then n <- str_param c "command" ;; call i (fun o r => v_execute v o n r) ;; ret true else ret present
            else ret present) ;;
      commands m r p
    end.
  Definition nack (w : string) : M unit :=
    fun s => let '(m, o) := set_nack (p_reply s) w in (w_reply m s, match o with Ret a => Ret a | Throw e => Throw (PFault (XIpc e)) | Undef => Undef end).
  Definition execute (m : msg) : M unit :=
    l <- get (fun s => map fst (p_objs s)) ;;
    p <- commands m l false ;;
    when (negb p) (nack "No valid commands found").
  (** requestCommands, lines 579-594 *)
  Definition request_commands : M unit := each_plugin (fun i => l <- ask i [] (v_commands v) ;; puts (map (fun c => ((i ++ "/command[]")%string, XStr c)) l)).
  (** provideStatus, lines 290-324; add_performance_stats, FrameProcessorPlugin.cpp:224-229; SharedMemoryController.cpp:285-292 *)
  Fixpoint statuses (l : list string) (es ws : list string) : M (list string * list string) :=
    match l with
    | [] => ret (es, ws)
    | i :: r =>
      put "plugins/names[]" (XStr i) ;;
      call i (v_status v) ;;
      t <- ask i (0, 0, 0) (v_perf v) ;;
      let '(a, b, c) := t in
      puts [((i ++ "/timing/last_process")%string, XUint64 a); ((i ++ "/timing/max_process")%string, XUint64 b); ((i ++ "/timing/mean_process")%string, XDouble c)] ;;
      e <- ask i [] (v_errors v) ;; w <- ask i [] (v_warnings v) ;;
      statuses r (es ++ e) (ws ++ w)
    end.
  Definition provide_status : M unit :=
    g <- get p_graph ;;
    match k_shm g with Some _ => put "shared_memory/configured" (XBool (v_shm_ok v)) | None => ret tt end ;;
    l <- get (fun s => map fst (p_objs s)) ;;
    x <- statuses l [] [] ;;
    puts (map (fun e => ("error[]", XStr e)) (fst x)) ;;
    puts (map (fun w => ("warning[]", XStr w)) (snd x)).
  (** provideVersion, lines 334-352; FrameProcessorPlugin.cpp:248-255 *)
  Definition version_texts (n : string) (a b c : Z) (s f : string) : list (string * value) :=
    map (fun p => (("version/" ++ n ++ "/" ++ fst p)%string, snd p)) [("major", XInt a); ("minor", XInt b); ("patch", XInt c); ("short", XStr s); ("full", XStr f)].
  Definition provide_version : M unit :=
    puts (version_texts "odin-data" (v_major v) (v_minor v) (v_patch v) (v_short v) (v_full v)) ;;
    each_plugin (fun i => x <- ask i (0, 0, 0, "", "") (v_vers v) ;; let '(a, b, c, s, f) := x in puts (version_texts i a b c s f)).
  (** resetStatistics, lines 603-622 *)
  Definition reset_statistics : M unit :=
    each_plugin (fun i =>
      touch i (v_reset_perf v) ;;
      ok <- ask i true (fun o => snd (v_reset v o)) ;;
      touch i (fun o => fst (v_reset v o)) ;;
      when (negb ok) (reply_type TNack ;; put "error" (XStr ("Failed to reset statistics on plugin " ++ i)))).

  (** handleCtrlChannel, lines 109-201.  [depth]: calls of configure that fit on the stack. *)
  Definition request (depth : nat) (text : list ascii) (m : msg) : M unit :=
    match g_type m, g_val m with
    | TCmd, VConfigure => reply_type TAck ;; configure depth m
    | TCmd, VRequestConfiguration => reply_type TAck ;; request_configuration
    | TCmd, VExecute => reply_type TAck ;; execute m
    | TCmd, VRequestCommands => reply_type TAck ;; request_commands
    | TCmd, VStatus => reply_type TAck ;; provide_status
    | TCmd, VRequestVersion => reply_type TAck ;; provide_version
    | TCmd, VResetStatistics => reply_type TAck ;; reset_statistics
    | TCmd, VShutdown => reply_type TAck ;; tell FExit
    | _, _ => put "error" (XStr ("Invalid control message: " ++ string_of_list_ascii text)) ;; reply_type TNack
    end.
  Definition handle_ctrl (depth : nat) (client : string) (text : list ascii) : M unit := fun s =>
    match msg_of_text (v_clock v) text true with
    | Throw ERange => (s, Throw (PFault (XIpc ERange)))
    | Throw _ => (s, Ret tt)
    | Undef => (s, Undef)
    | Ret m =>
      let r := new_msg TIllegal VIllegal true (v_now v) in
      match (change (w_reply (Msg (g_strict r) (g_doc r) TIllegal (g_val m) (g_id m) (g_time r))) ;;
             request depth text m ;;
             r <- get p_reply ;; d <- lift (encode (v_clock v) r) ;; tell (FReply client d)) s with
      | (s1, Throw (PFault (XIpc ERange))) => (s1, Throw (PFault (XIpc ERange)))
      | (s1, Throw (PFault (XIpc _))) => (s1, Ret tt)
      | (s1, Throw (PFault (XRun w))) =>
        (change (w_reply (let r := new_msg TNack VConfigure true (v_now v) in Msg (g_strict r) (g_doc r) (g_type r) (g_val r) (g_id m) (g_time r))) ;;
         put "error" (XStr w) ;;
         r <- get p_reply ;; d <- lift (encode (v_clock v) r) ;; tell (FNobody d)) s1
      | r => r
      end
    end.

  (** handleMetaRxChannel, lines 203-251; MetaMessage.h *)
  Record meta := Meta { t_plugin : string; t_item : string; t_type : string; t_header : string; t_data : list Z }.
  Definition meta_doc (x : meta) : json :=
    JObj [("plugin", JStr (t_plugin x)); ("parameter", JStr (t_item x)); ("type", JStr (t_type x));
          ("header", match parse (list_ascii_of_string (t_header x)) with Some j => j | None => JStr (t_header x) end)].
  Definition handle_meta (x : meta) : M unit := tell (FMeta (cut (fst (emit (meta_doc x)))) (t_data x)).

  (** callback, lines 263-280: called by the threads of the file writers; int counters; waiting for the main thread is not modelled. *)
  Definition callback (dataset : string) : M unit :=
    m <- get p_master ;;
    when (String.eqb m "" || String.eqb dataset m) (change (fun s => w_total (i32 (p_total s + 1)) s)) ;;
    t <- get p_total ;; l <- get p_limit ;;
    when (t =? l) (tell FExit).
End Controller.
(** Lines 55-80; OdinDataDefaults.h:22-23 *)
Definition prc_init {P} (limit : Z) (debug : Z) : prc P :=
  Prc "" limit 0 debug "" [] "" [] (Ctrl [] None ("tcp://127.0.0.1:5002", "tcp://127.0.0.1:5001")) [] [] [] (new_msg TIllegal VIllegal true 0) [].
