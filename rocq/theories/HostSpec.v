(** File writers in a frame processor: how the controller uses them, and what a client shall see. *)
From Coq Require Import String Ascii.
From Verif Require Import Base StrOrder JsonModel JsonSpec PrcModel PrcSpec AcqModel FwModel FwSpec FwcModel FwcSpec.
Local Open Scope string_scope.
Local Open Scope list_scope.

Section Host.
  Context {P : Type}.
  (** Among the plugins are file writers, [w s]: the controller makes them and calls their functions.  Other plugins are arbitrary.  [look]: paths, [i]: failures of HDF5, [act], [dk]: as in the constructor *)
  Record hosts (v : env P) (w : fwx -> P) (look : string -> place) (i : io) (act : bool) (dk : disk) : Prop := Hosts {
    ho_one : forall f g, w f = w g -> f = g;
    ho_make : forall j, v_make v "FileWriterPlugin" j = Some (w (fwx_init j act dk));
    ho_configure : forall s m r, v_configure v (w s) m r = let '(s1, r1, o) := fwx_configure look (v_now v) m s r in (w s1, r1, o);
    ho_request : forall s r, v_request v (w s) r = let '(s1, r1, o) := fwx_request s r in (w s1, r1, o);
    ho_status : forall s r, v_status v (w s) r = let '(s1, r1, o) := fwx_status s r in (w s1, r1, o);
    ho_execute : forall s c r, v_execute v (w s) c r = let '(s1, r1, o) := fwx_execute i c s r in (w s1, r1, o);
    ho_commands : forall s, v_commands v (w s) = fwx_commands;
    ho_reset : forall s, v_reset v (w s) = let '(s1, b) := fwx_reset s in (w s1, b);
    ho_perf : forall s, v_reset_perf v (w s) = w s;
    ho_clear : forall s, v_clear v (w s) = w s }.
  (** The other plugins keep the head of the reply. *)
  Definition courteous (v : env P) (w : fwx -> P) : Prop := forall o, (exists f, o = w f) \/ forall r,
    (forall m, keeps_head r (snd (fst (v_configure v o m r)))) /\ keeps_head r (snd (fst (v_request v o r))) /\ (forall n, keeps_head r (snd (fst (v_execute v o n r)))) /\ keeps_head r (snd (fst (v_status v o r))).
  (** The file writer [f] with the name [j] *)
  Definition writer (w : fwx -> P) (s : prc P) (j : string) (f : fwx) : Prop := sm_get (p_objs s) j = Some (w f) /\ x_name f = j.
  (** Each plugin is a file writer or as [Q] says. *)
  Definition others (w : fwx -> P) (s : prc P) (Q : string -> P -> Prop) : Prop := all_plugins s (fun j p => (exists f, p = w f /\ x_name f = j) \/ Q j p).
  (** A file writer that can report its configuration *)
  Definition presentable (f : fwx) : Prop := sane f /\ Forall usable (map d_name (w_defs (x_fw f))).

  (** ** Messages with sections for plugins only *)
  Definition reserved : list string := ["clear_errors"; "frames"; "inject_eoa"; "debug_level"; "ctrl_endpoint"; "meta_endpoint"; "plugin"; "fr_setup"; "store"; "execute"].
  Definition for_plugins (x : json) : Prop := object x /\ forall k, In k reserved -> forall y, ~ leads [k] x y.
  (** The controller itself reads the name of the master data set in the section "hdf". *)
  Definition master_read (x : json) : Prop := forall y, leads ["hdf"] x y -> object y /\ forall z, leads ["master"] y z -> exists t, z = JStr t.
  (** The message that asks for a plugin *)
  Definition load_again (i n b : string) : json := JObj [("plugin", JObj [("load", JObj [("name", JStr n); ("index", JStr i); ("library", JStr b)])])].
  (** The section asks the file writer for nothing it refuses. *)
  Definition suits (look : string -> place) (f : fwx) (y : json) : Prop := well_formed y f /\ forall t, leads ["file"; "path"] y (JStr t) -> look (cstr t) = Writable.
  (** The plugin accepts the section; it may write into the reply. *)
  Definition takes (v : env P) (o : P) (y : json) : Prop := forall m r, holds m [] y -> (forall p, params_of r = Some p -> object p) ->
    exists o1 r1, v_configure v o m r = (o1, r1, Ret tt) /\ (forall p, params_of r1 = Some p -> object p) /\ g_type r1 = g_type r /\ g_val r1 = g_val r /\ g_id r1 = g_id r.

  (** ** Frame processors at work *)
  (** Other plugins do not become file writers, however they are called; [work]: what they do with frames *)
  Record separate (v : env P) (w : fwx -> P) (work : string -> P -> P -> Prop) (O : string -> P -> Prop) : Prop := Separate {
    se_none : forall j f, ~ O j (w f);
    se_make : forall k j o, v_make v k j = Some o -> k = "FileWriterPlugin" \/ O j o;
    se_call : forall j o r, O j o -> (forall m, O j (fst (fst (v_configure v o m r)))) /\ O j (fst (fst (v_request v o r))) /\ (forall c, O j (fst (fst (v_execute v o c r)))) /\ O j (fst (fst (v_status v o r)));
    se_touch : forall j o, O j o -> O j (fst (v_reset v o)) /\ O j (v_reset_perf v o) /\ O j (v_clear v o);
    se_work : forall j o o1, O j o -> work j o o1 -> O j o1 }.
  (** From the start: messages, frames and timeouts of file writers, work of other plugins, frames that are done, meta data.  [Q]: frames that may occur.  Frames come between messages only, not between the calls of plugins within one. *)
  Inductive running (v : env P) (w : fwx -> P) (work : string -> P -> P -> Prop) (depth : nat) (i : io) (Q : io * frame -> Prop) (limit debug : Z) : prc P -> Prop :=
  | ru_start : running v w work depth i Q limit debug (prc_init limit debug)
  | ru_message s c t s1 : running v w work depth i Q limit debug s -> handle_ctrl v depth c t s = (s1, Ret tt) -> running v w work depth i Q limit debug s1
  | ru_frame s j f c fw o file timing woken : running v w work depth i Q limit debug s -> sm_get (p_objs s) j = Some (w f) -> ~ is_configure c -> op_ok (eq i) Q c -> fw_call c (x_fw f) = (fw, o) -> o <> Undef ->
      running v w work depth i Q limit debug (w_objs (sm_put (p_objs s) j (w (FWX fw (x_earliest f) (x_threshold f) (x_value f) (x_create f) (x_write f) (x_flush f) (x_close f) (x_blosc f) file woken timing (x_name f)))) s)
  | ru_work s j p p1 : running v w work depth i Q limit debug s -> sm_get (p_objs s) j = Some p -> (forall f, p <> w f) -> work j p p1 -> running v w work depth i Q limit debug (w_objs (sm_put (p_objs s) j p1) s)
  | ru_done s d s1 : running v w work depth i Q limit debug s -> callback d s = (s1, Ret tt) -> running v w work depth i Q limit debug s1
  | ru_meta s x s1 : running v w work depth i Q limit debug s -> handle_meta x s = (s1, Ret tt) -> running v w work depth i Q limit debug s1.
End Host.
