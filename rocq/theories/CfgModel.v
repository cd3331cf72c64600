(** Plugins that are configured by messages: common to all of them.  frameProcessor/include/FrameProcessorPlugin.h:64-70, common/include/IpcMessage.h. *)
From Coq Require Import String Ascii.
From Verif Require Import Base JsonModel PrcModel.
Local Open Scope string_scope.
Local Open Scope list_scope.
Local Open Scope Z_scope.

Section Plugin.
  Context {S : Type}.
  (** Statements of configure, requestConfiguration, execute and status: the plugin, the reply it has a reference to, how it ended *)
  Definition C (A : Type) := S -> msg -> S * msg * outcome fault A.
  Definition cret {A} (a : A) : C A := fun s r => (s, r, Ret a).
  Definition cthrow {A} (f : fault) : C A := fun s r => (s, r, Throw f).
  Definition cseq {A B} (a : C A) (f : A -> C B) : C B := fun s r =>
    let '(s1, r1, o) := a s r in match o with Ret x => f x s1 r1 | Throw e => (s1, r1, Throw e) | Undef => (s1, r1, Undef) end.
  Definition cget : C S := fun s r => (s, r, Ret s).
  Definition cset (f : S -> S) : C unit := fun s r => (f s, r, Ret tt).
  Definition clift {A} (o : outcome ipcexc A) : C A := fun s r => (s, r, match o with Ret a => Ret a | Throw e => Throw (XIpc e) | Undef => Undef end).
  (** set_param and set_nack on the reply *)
  Definition cput (n : string) (x : value) : C unit := fun s r =>
    let '(m, o) := set_param r n x in (s, m, match o with Ret a => Ret a | Throw e => Throw (XIpc e) | Undef => Undef end).
  Fixpoint cputs (l : list (string * value)) : C unit := match l with [] => cret tt | (n, x) :: t => cseq (cput n x) (fun _ => cputs t) end.
  Definition cnack (w : string) : C unit := fun s r =>
    let '(m, o) := set_nack r w in (s, m, match o with Ret a => Ret a | Throw e => Throw (XIpc e) | Undef => Undef end).

  (** get_param of the types that plugins use *)
  Definition u64 (m : msg) (n : string) : outcome ipcexc Z := bind (get_param GUint64 m n) (fun r => Ret (match r with RInt z => z | _ => 0 end)).
  Definition uint (m : msg) (n : string) : outcome ipcexc Z := bind (get_param GUint m n) (fun r => Ret (match r with RInt z => z | _ => 0 end)).
  Definition int (m : msg) (n : string) : outcome ipcexc Z := bind (get_param GInt m n) (fun r => Ret (match r with RInt z => z | _ => 0 end)).
  Definition boolean (m : msg) (n : string) : outcome ipcexc bool := bind (get_param GBool m n) (fun r => Ret (match r with RBool b => b | _ => false end)).
  Definition text (m : msg) (n : string) : outcome ipcexc string := bind (get_param GStr m n) (fun r => Ret (match r with RStr s => s | _ => "" end)).
  (** if (config.has_param(n)) { ... config.get_param<A>(n) ... } *)
  Definition setting {A} (m : msg) (n : string) (get : msg -> string -> outcome ipcexc A) (k : A -> C unit) : C unit :=
    cseq (clift (has_param m n)) (fun h => if h : bool then cseq (clift (get m n)) k else cret tt).
  (** A local copy of a member: its new value, if any *)
  Definition local {A} (m : msg) (n : string) (get : msg -> string -> outcome ipcexc A) : C (option A) :=
    cseq (clift (has_param m n)) (fun h => if h : bool then cseq (clift (get m n)) (fun a => cret (Some a)) else cret None).
  (** IpcMessage(config.get_param<const rapidjson::Value&>(n)) *)
  Definition part (now : Z) (m : msg) (n : string) : outcome ipcexc msg := bind (get_ref m n) (fun x => Ret (msg_of_value x TIllegal VIllegal true now)).
  (** Size() and GetUint64() of an array *)
  Fixpoint u64s (l : list json) : outcome ipcexc (list Z) :=
    match l with
    | [] => Ret []
    | x :: t => bind (get_value GUint64 x) (fun r => bind (u64s t) (fun z => Ret ((match r with RInt z => z | _ => 0 end) :: z)))
    end.
  Definition u64_array (m : msg) (n : string) : outcome ipcexc (list Z) := bind (get_ref m n) (fun x => match x with JArr l => u64s l | _ => Throw EAssert end).
End Plugin.
Arguments C : clear implicits.
Declare Scope cfg_scope.
Delimit Scope cfg_scope with cfg.
Notation "x <- a ;; b" := (cseq a (fun x => b)) (at level 61, a at next level, right associativity) : cfg_scope.
Notation "a ;; b" := (cseq a (fun _ => b)) (at level 61, right associativity) : cfg_scope.
