(** What the messages between the frame receiver and the frame processor say, and what each side relies on. *)
From Coq Require Import String Ascii.
From Verif Require Import Base JsonModel JsonReadModel JsonSpec ShmModel SmcModel.
Local Open Scope string_scope.
Local Open Scope list_scope.
Local Open Scope Z_scope.

(** A string as read: up to the first zero character *)
Definition reads (s w : string) : Prop := no_nul w /\ (s = w \/ exists r, s = append w (String zero r)).
(** The text is a message of this type and value with these parameters: a JSON object with a time, an id that is absent or an unsigned number of 32 bits, and an object of parameters *)
Definition message (c : clock) (t : list ascii) (type val : string) (p : json) : Prop :=
  exists x a b h, parse t = Some x /\ leads ["msg_type"] x (JStr a) /\ reads a type /\ leads ["msg_val"] x (JStr b) /\ reads b val /\
  leads ["timestamp"] x (JStr h) /\ (exists w z, reads h w /\ time_parse c w = Some z) /\
  ((forall y, ~ leads ["id"] x y) \/ exists i, leads ["id"] x (JInt i) /\ 0 <= i < 2 ^ 32) /\ leads ["params"] x p /\ object p.
(** Frame [no] is in buffer [b]. *)
Definition ready (c : clock) (t : list ascii) (b no : Z) : Prop :=
  exists p, message c t "notify" "frame_ready" p /\ leads ["buffer_id"] p (JInt b) /\ - 2 ^ 31 <= b < 2 ^ 31 /\ b <> -1 /\
  (leads ["frame"] p (JInt no) /\ - 2 ^ 31 <= no < 2 ^ 31 \/ (forall y, ~ leads ["frame"] p y) /\ no = 0).
(** The shared memory is called [n]. *)
Definition config (c : clock) (t : list ascii) (n : string) : Prop := exists p a, message c t "notify" "buffer_config" p /\ leads ["shared_buffer_name"] p (JStr a) /\ reads a n.
(** What is the shared memory called? *)
Definition asks (c : clock) (t : list ascii) : Prop := exists p, message c t "cmd" "request_buffer_config" p.
(** Buffer [b], which held frame [no], is free. *)
Definition frees (c : clock) (t : list ascii) (b no : Z) : Prop := exists p, message c t "notify" "frame_release" p /\ leads ["buffer_id"] p (JInt b) /\ leads ["frame"] p (JInt no).

(** A message with the name of the shared memory came in since the controller was made. *)
Definition told (l : list (env * op)) : Prop :=
  exists l1 e c t n l2, l = l1 ++ (e, KMessage c t) :: l2 /\ config (e_clock e) t n /\ forall e' o, In (e', o) l2 -> o <> KClose /\ forall x, o <> KSetup x.
(** Who is registered under name [n] after these events, the last one first: the first one under a name counts until it is removed; a new controller knows nobody. *)
Fixpoint registered (n : string) (l : list op) : option nat :=
  match l with
  | [] | KClose :: _ | KSetup _ :: _ => None
  | KRegister m p :: r => if String.eqb m n then match registered n r with Some q => Some q | None => Some p end else registered n r
  | KRemove m :: r => if String.eqb m n then None else registered n r
  | _ :: r => registered n r
  end.

(** Effects: requests and releases sent, frames made *)
Fixpoint requests (c : nat) (l : list effect) : list (list ascii) := match l with [] => [] | EAsk d t :: r => if Nat.eqb c d then t :: requests c r else requests c r | _ :: r => requests c r end.
Fixpoint releases (l : list effect) : list (nat * list ascii) := match l with [] => [] | EGive c t :: r => (c, t) :: releases r | _ :: r => releases r end.
Fixpoint made (l : list effect) : list frame := match l with [] => [] | EFrame f :: r => f :: made r | _ :: r => made r end.
(** The same clock all the time: what it writes it reads, "none" is no time. *)
Definition clock_ok (c : clock) : Prop := (forall t, no_nul (time_text c (Some t)) /\ time_parse c (time_text c (Some t)) = Some t) /\ time_parse c "none" = None.
Definition one_clock (c : clock) (l : list (env * op)) : Prop := clock_ok c /\ forall e o, In (e, o) l -> e_clock e = c.

(** Careful use: connections are changed when no frame and no deferred request is outstanding, and another name of the shared memory comes when no frame is outstanding; the second connect does not fail;
    no message of the old connection is handled after the change. *)
Definition careful (ck : clock) (o : op) (s : smc) : Prop :=
  match o with
  | KSetup x => x <> SecondFails /\ z_frames s = [] /\ z_timers s = []
  | KClose => z_frames s = [] /\ z_timers s = []
  | KMessage c t => (exists k, z_ctl s = Some (c, k)) /\ ((exists n, config ck t n) -> z_frames s = [])
  | _ => True
  end.
(** Shared memory objects that do not change and have room for header and buffers *)
Definition roomy (objs : nat -> obj) : Prop := forall i, ob_size (objs i) <> 0 -> 0 <= ob_num (objs i) /\ 0 <= ob_bs (objs i) /\ header_size + ob_num (objs i) * ob_bs (objs i) <= ob_size (objs i) < 2 ^ 63.
Inductive careful_run (ck : clock) (objs : nat -> obj) : list (env * op) -> smc -> Prop :=
| cr_init : careful_run ck objs [] smc_init
| cr_step l s e o s' : careful_run ck objs l s -> possible o s = true -> careful ck o s -> e_clock e = ck -> (forall i, s_objs (e_shm e) i = objs i) -> kstep e o s = Ret s' -> careful_run ck objs (l ++ [(e, o)]) s'.
(** What a frame keeps: its number and that of its controller, its mapping, buffer, address and size *)
Definition ident (f : frame) : nat * nat * nat * Z * Z * Z := (f_id f, f_ctl f, f_map f, f_buf f, f_addr f, f_size f).
(** Releases on the right channels for these frames *)
Definition returned (ck : clock) (gone : list frame) (l : list (nat * list ascii)) : Prop := Forall2 (fun f x => fst x = f_ctl f /\ exists no, frees ck (snd x) (f_buf f) no) gone l.
