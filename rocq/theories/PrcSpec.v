(** What the controller of the frame processor shall do. *)
From Coq Require Import String Ascii.
From Verif Require Import Base StrOrder JsonModel JsonSpec JsonDoubleModel PrcModel.
Local Open Scope string_scope.
Local Open Scope list_scope.

Definition is_reply (e : effect) : bool := match e with FReply _ _ | FNobody _ => true | _ => false end.
(** Messages in a stored value: the elements of an array, otherwise the value *)
Definition messages (y : json) (l : list json) : Prop := y = JArr l \/ (l = [y] /\ forall k, y <> JArr k).
Definition message_in (x y : json) : Prop := exists l, messages y l /\ In x l.
(** Stored configurations have ranks: a message executes configurations of ranks below [b] only, and what it stores at an index executes configurations of ranks below that of the index only. *)
Inductive ranked (r : string -> nat) : nat -> json -> Prop :=
| rk b x :
    (forall i, leads ["execute"; "index"] x (JStr i) -> r (cstr i) < b) ->
    (forall i y z, leads ["store"; "index"] x (JStr i) -> leads ["store"; "value"] x y -> message_in z y -> ranked r (r (cstr i)) z) ->
    ranked r b x.

(** A name that does not lead into the part [k] of the parameters *)
Definition elsewhere (k i : string) : Prop := exists n r, any_path (n :: r) /\ i = slashed (n :: r) /\ n <> k.

Section Spec.
  Context {P : Type}.
  (** Everything but the replies *)
  Definition visible (s : prc P) : prc P := w_out (filter (fun e => negb (is_reply e)) (p_out s)) (w_reply (new_msg TIllegal VIllegal true 0) s).
  Definition alike (s s' : prc P) : Prop := visible s = visible s'.
  (** The text is a message to configure with the parameters [x]. *)
  Definition carries (v : env P) (t : list ascii) (x : json) : Prop := exists m, msg_of_text (v_clock v) t true = Ret m /\ g_type m = TCmd /\ g_val m = VConfigure /\ holds m [] x.
  (** ... or one with parameters that are not an object: such texts are refused. *)
  Definition sent_as (v : env P) (t : list ascii) (x : json) : Prop := carries v t x \/ (~ object x /\ exists e, msg_of_text (v_clock v) t true = Throw e).
  (** Plugins keep the id and the value of the reply, and its type unless they refuse. *)
  Definition keeps_head (r r' : msg) : Prop := g_id r' = g_id r /\ g_val r' = g_val r /\ (g_type r' = g_type r \/ g_type r' = TNack).
  Definition polite (v : env P) : Prop := forall o r,
    (forall m, keeps_head r (snd (fst (v_configure v o m r)))) /\ keeps_head r (snd (fst (v_request v o r))) /\ (forall n, keeps_head r (snd (fst (v_execute v o n r)))) /\ keeps_head r (snd (fst (v_status v o r))).
  (** ... and what they do when they are configured does not depend on it. *)
  Definition behaved (v : env P) : Prop := polite v /\ forall o m r r',
    fst (fst (v_configure v o m r)) = fst (fst (v_configure v o m r')) /\ snd (v_configure v o m r) = snd (v_configure v o m r').
  (** The client has got a reply. *)
  Definition answered (c : string) (s s1 : prc P) : Prop := exists l d, p_out s1 = p_out s ++ l ++ [FReply c d].
  (** A client sends the texts one after the other as long as it gets replies; in the end: it got all of them. *)
  Inductive sends (v : env P) (n : nat) (c : string) : list (list ascii) -> prc P -> prc P -> bool -> Prop :=
  | sd_end s : sends v n c [] s s true
  | sd_next t r s s1 o s2 b : handle_ctrl v n c t s = (s1, o) -> answered c s s1 -> sends v n c r s1 s2 b -> sends v n c (t :: r) s s2 b
  | sd_stop t r s s1 o : handle_ctrl v n c t s = (s1, o) -> ~ answered c s s1 -> sends v n c (t :: r) s s1 false.
  (** Nothing but plugins and replies differs; the same plugins *)
  Definition only_plugins (s s1 : prc P) : Prop := alike s1 (w_objs (p_objs s1) s) /\ map fst (p_objs s1) = map fst (p_objs s).
  (** Any texts, whatever happens, until an exception leaves the handler *)
  Inductive reached (v : env P) (n : nat) (ok : list ascii -> Prop) (s0 : prc P) : prc P -> Prop :=
  | re_start : reached v n ok s0 s0
  | re_step s c t s1 : reached v n ok s0 s -> ok t -> handle_ctrl v n c t s = (s1, Ret tt) -> reached v n ok s0 s1.
End Spec.

(** ** Requests that read *)
(** A reply with room for what a plugin writes, and nothing of it there *)
Definition ready (i : string) (r : msg) : Prop := (forall p, params_of r = Some p -> object p) /\ forall x, ~ holds r [i] x.
Definition nice (i : string) : Prop := no_slash i /\ no_nul i /\ plain i.
Section Ask.
  Context {P : Type}.
  (** The text is the command [w] with the id [i]. *)
  Definition asks (v : env P) (t : list ascii) (w : msg_val) (i : Z) : Prop := exists m, msg_of_text (v_clock v) t true = Ret m /\ g_type m = TCmd /\ g_val m = w /\ g_id m = Some i.
  (** The reply to the client, the only one *)
  Definition replies (c : string) (d : list (string * json)) (s s1 : prc P) : Prop := exists l, p_out s1 = p_out s ++ l ++ [FReply c d] /\ forall e, In e l -> is_reply e = false.
  Definition says (d : list (string * json)) (k : string) (x : json) : Prop := leads [k] (JObj d) x.
  Definition param (d : list (string * json)) (q : list string) (x : json) : Prop := leads ("params" :: q) (JObj d) x.
  (** The plugin writes in its own part of the reply only. *)
  Definition stays_in (i : string) (f : P -> msg -> P * msg * outcome fault unit) (o : P) : Prop :=
    forall r q x, q <> [] -> hd "" q <> i -> (holds (snd (fst (f o r))) q x <-> holds r q x).
  (** The part of the reply that has the name of the plugin is what the plugin writes there, given some reply without that part; the plugin is [o1] then. *)
  Definition part_of (i : string) (f : P -> msg -> P * msg * outcome fault unit) (o o1 : P) (d : list (string * json)) : Prop :=
    exists r, (forall q x, ~ holds r (i :: q) x) /\ o1 = fst (fst (f o r)) /\ snd (f o r) = Ret tt /\ forall q x, param d (i :: q) x <-> holds (snd (fst (f o r))) (i :: q) x.
  (** The same but for the times that the controller adds *)
  Definition untimed (q : list string) : Prop := forall k, In k ["last_process"; "max_process"; "mean_process"] -> apart ["timing"; k] q.
  Definition status_part (i : string) (f : P -> msg -> P * msg * outcome fault unit) (o o1 : P) (d : list (string * json)) : Prop :=
    exists r, (forall q x, ~ holds r (i :: q) x) /\ o1 = fst (fst (f o r)) /\ snd (f o r) = Ret tt /\ forall q x, untimed q -> (param d (i :: q) x <-> holds (snd (fst (f o r))) (i :: q) x).
  (** Texts in an array; nothing without texts *)
  Definition listed (d : list (string * json)) (q : list string) (l : list string) : Prop :=
    forall x, param d q x <-> l <> [] /\ x = JArr (map (fun e => JStr (cstr e)) l).
  Definition version_of (d : list (string * json)) (n : string) (x : Z * Z * Z * string * string) : Prop :=
    let '(a, b, c, s, f) := x in param d ["version"; n; "major"] (JInt a) /\ param d ["version"; n; "minor"] (JInt b) /\ param d ["version"; n; "patch"] (JInt c) /\ param d ["version"; n; "short"] (JStr (cstr s)) /\ param d ["version"; n; "full"] (JStr (cstr f)).
  Definition timing_of (d : list (string * json)) (i : string) (x : Z * Z * Z) : Prop :=
    let '(a, b, c) := x in param d [i; "timing"; "last_process"] (JInt a) /\ param d [i; "timing"; "max_process"] (JInt b) /\ param d [i; "timing"; "mean_process"] (JDouble c).
  (** All texts of the plugins in the order of their names *)
  Definition texts (f : P -> list string) (s : prc P) : list string := flat_map (fun e => f (snd e)) (p_objs s).
  (** The plugin returns, leaves the rest of the reply as it is, and its parameters an object, ... *)
  Definition willing (i : string) (f : P -> msg -> P * msg * outcome fault unit) (o : P) : Prop :=
    forall r, ready i r -> snd (f o r) = Ret tt /\ (forall q x, q <> [] -> hd "" q <> i -> (holds (snd (fst (f o r))) q x <-> holds r q x)) /\ forall p, params_of (snd (fst (f o r))) = Some p -> object p.
  (** ... and leaves room for "timing". *)
  Definition obliging (i : string) (f : P -> msg -> P * msg * outcome fault unit) (o : P) : Prop :=
    willing i f o /\ forall r k, ready i r -> clear_way ["params"; i; "timing"; k] (JObj (g_doc (snd (fst (f o r))))).
  Definition all_plugins (s : prc P) (Q : string -> P -> Prop) : Prop := forall i o, sm_get (p_objs s) i = Some o -> Q i o.
  (** Plugins with proper names, none of them among [l] *)
  Definition named (s : prc P) (l : list string) : Prop := sm_ok (p_objs s) /\ forall i, In i (map fst (p_objs s)) -> nice i /\ ~ In i l.
End Ask.
