(** What a message to configure the frame processor asks for; frames that are counted; meta data that is published. *)
From Coq Require Import String Ascii.
From Verif Require Import Base StrOrder PluginModel CtrlModel JsonModel JsonSpec PrcModel.
Local Open Scope string_scope.
Local Open Scope list_scope.

(** A text at the path [q] is the new value, nothing there leaves the old one; there is nothing else. *)
Definition text_set (x : json) (q : list string) (old new : string) : Prop :=
  (exists t, leads q x (JStr t) /\ new = cstr t) \/ ((forall y, ~ leads q x y) /\ new = old).
(** The same with a number of 32 bits *)
Definition number_set (x : json) (q : list string) (f : Z -> Z) (old new : Z) : Prop :=
  (exists z, leads q x (JInt z) /\ (0 <= z < 2 ^ 32)%Z /\ new = f z) \/ ((forall y, ~ leads q x y) /\ new = old).
(** 0 asks for no limit, but does not take one back; the limit is an int. *)
Definition limit_of (old z : Z) : Z := if (z =? 0)%Z then old else if (z <? 2 ^ 31)%Z then z else (z - 2 ^ 32)%Z.

(** The commands in the section "plugin", and the endpoints of the receiver *)
Definition lacks (x : json) (q l : list string) : Prop := exists n, In n l /\ forall y, ~ leads (q ++ [n]) x y.
Inductive asks_load (x : json) : list cmd -> Prop :=
| al_load i n b : leads ["plugin"; "load"; "index"] x (JStr i) -> leads ["plugin"; "load"; "name"] x (JStr n) -> leads ["plugin"; "load"; "library"] x (JStr b) -> asks_load x [Load (cstr i) (cstr n) true]
| al_none : lacks x ["plugin"; "load"] ["name"; "index"; "library"] -> asks_load x [].
Inductive asks_connect (x : json) : list cmd -> Prop :=
| ac_connect i n : leads ["plugin"; "connect"; "index"] x (JStr i) -> leads ["plugin"; "connect"; "connection"] x (JStr n) -> asks_connect x [Connect (cstr i) (cstr n)]
| ac_none : lacks x ["plugin"; "connect"] ["connection"; "index"] -> asks_connect x [].
Inductive asks_disconnect (x : json) : list cmd -> Prop :=
| ad_disconnect i n : leads ["plugin"; "disconnect"; "index"] x (JStr i) -> leads ["plugin"; "disconnect"; "connection"] x (JStr n) -> asks_disconnect x [Disconnect (cstr i) (cstr n)]
| ad_all t : leads ["plugin"; "disconnect"] x (JStr t) -> cstr t = "all" -> asks_disconnect x [DisconnectAll]
| ad_none : lacks x ["plugin"; "disconnect"] ["connection"; "index"] -> (forall t, leads ["plugin"; "disconnect"] x (JStr t) -> cstr t <> "all") -> asks_disconnect x [].
Inductive asks_receiver (x : json) : list cmd -> Prop :=
| ar_setup p q : leads ["fr_setup"; "fr_release_cnxn"] x (JStr p) -> leads ["fr_setup"; "fr_ready_cnxn"] x (JStr q) -> asks_receiver x [Setup (cstr p) (cstr q)]
| ar_none : lacks x ["fr_setup"] ["fr_release_cnxn"; "fr_ready_cnxn"] -> asks_receiver x [].
Definition orders (x : json) (l : list cmd) : Prop := exists a b c d, asks_load x a /\ asks_connect x b /\ asks_disconnect x c /\ asks_receiver x d /\ l = a ++ b ++ c ++ d.
(** All of the commands are done. *)
Inductive all_done : list cmd -> ctrl -> ctrl -> Prop :=
| dn_nil g : all_done [] g g
| dn_cons c l g g1 g2 : do_cmd c g = Ret g1 -> all_done l g1 g2 -> all_done (c :: l) g g2.

Section Spec.
  Context {P : Type}.
  (** A plugin is given its section of the message as a command to configure. *)
  Definition section_given (v : env P) (x : json) (i : string) (old new : P) : Prop :=
    (exists y m r, leads [i] x y /\ holds m [] y /\ g_type m = TCmd /\ g_val m = VConfigure /\ v_configure v old m r = (new, snd (fst (v_configure v old m r)), Ret tt)) \/ ((forall y, ~ leads [i] x y) /\ new = old).
  (** Its errors are cleared before if the message asks for that. *)
  Definition plugin_set (v : env P) (x : json) (i : string) (old new : P) : Prop :=
    ((exists y, leads ["clear_errors"] x y) /\ section_given v x i (v_clear v old) new) \/ ((forall y, ~ leads ["clear_errors"] x y) /\ section_given v x i old new).

  (** The plugin [p] with the name [i] is the one that gets the section: it was there, or is loaded. *)
  Inductive addressed (v : env P) (x : json) (s : prc P) (i : string) : P -> Prop :=
  | ad_there p : sm_get (p_objs s) i = Some p -> (forall y, ~ leads ["clear_errors"] x y) -> addressed v x s i p
  | ad_cleared p y : sm_get (p_objs s) i = Some p -> leads ["clear_errors"] x y -> addressed v x s i (v_clear v p)
  | ad_loaded k p : sm_get (p_objs s) i = None -> asks_load x [Load i k true] -> v_make v k i = Some p -> addressed v x s i p.

  (** The plugins that are there are those that can be connected. *)
  Definition matched (s : prc P) : Prop := sm_ok (p_objs s) /\ forall i, sm_get (p_objs s) i = None <-> sm_get (k_plugins (p_graph s)) i = None.

  (** Data sets of frames that reached the end of a chain of plugins one after the other *)
  Inductive finished : list string -> prc P -> prc P -> Prop :=
  | fi_nil s : finished [] s s
  | fi_cons d l s s1 s2 : callback d s = (s1, Ret tt) -> finished l s1 s2 -> finished (d :: l) s s2.
End Spec.
(** Those that count: all without a master *)
Inductive counts (master : string) : list string -> nat -> Prop :=
| ct_nil : counts master [] 0
| ct_yes d l n : (master = "" \/ d = master) -> counts master l n -> counts master (d :: l) (S n)
| ct_no d l n : master <> "" -> d <> master -> counts master l n -> counts master (d :: l) n.
