(** The shared buffer manager.  common/src/SharedBufferManager.cpp, SharedBufferManager.h. *)
From Coq Require Import String.
From Verif Require Import Base.
Local Open Scope Z_scope.

(** sizeof(Header), SharedBufferManager.h:32-37: three size_t. *)
Definition header_size : Z := 24.
Definition wrap64 (z : Z) : Z := z mod 2 ^ 64.

(** A shared memory object: its size and the header at its start (bytes of a new object are zero).  The bytes of the buffers are not
    part of this model. *)
Record obj := Obj { ob_size : Z; ob_id : Z; ob_num : Z; ob_bs : Z }.
(** The shared memory objects of the machine: names (shm_open / shm_unlink), contents by identity (an object that was unlinked
    lives on for those who mapped it), next identity, last_manager_id (each process has its own; one here). *)
Record shm := Shm { s_names : string -> option nat; s_objs : nat -> obj; s_next : nat; s_lastid : Z }.
Definition shm_init : shm := Shm (fun _ => None) (fun _ => Obj 0 0 0 0) 0 0.

(** A SharedBufferManager: name, object, bytes mapped, remove_when_deleted_. *)
Record mgr := Mgr { g_name : string; g_obj : nat; g_region : Z; g_remove : bool }.
Inductive sbexc := EZero | ESize | EMap | EIndex.

Definition set_name (n : string) (o : option nat) (s : shm) : shm := Shm (fun m => if String.eqb m n then o else s_names s m) (s_objs s) (s_next s) (s_lastid s).
Definition set_obj (i : nat) (o : obj) (s : shm) : shm := Shm (s_names s) (fun j => if Nat.eqb j i then o else s_objs s j) (s_next s) (s_lastid s).

(** shared_memory_object(open_or_create, ...), line 20; it does not fail here. *)
Definition open_or_create (n : string) (s : shm) : shm * nat :=
  match s_names s n with
  | Some i => (s, i)
  | None => let i := s_next s in
    (Shm (fun m => if String.eqb m n then Some i else s_names s m) (fun j => if Nat.eqb j i then Obj 0 0 0 0 else s_objs s j) (S i) (s_lastid s), i)
  end.

(** The constructor, lines 15-56.  The size given to truncate is a size_t sum, then a signed offset: negative ones are refused
    by ftruncate.  A region of no bytes cannot be mapped.  Lack of memory is not modelled.  When it throws, the object stays
    (the destructor does not run). *)
Definition create (n : string) (size bs : Z) (rem : bool) (s0 : shm) : shm * outcome sbexc mgr :=
  let '(s1, i) := open_or_create n s0 in
  if bs =? 0 then (s1, Throw EZero)
  else
    let len := wrap64 (header_size + size) in
    if 2 ^ 63 <=? len then (s1, Throw EMap)
    else
      let o := s_objs s1 i in
      let s2 := set_obj i (Obj len (ob_id o) (ob_num o) (ob_bs o)) s1 in
      if len =? 0 then (s2, Throw EMap)
      else
        let num := size / bs in
        if num =? 0 then (s2, Throw ESize)
        else if len <? header_size then (s2, Undef)
        else
          let s3 := set_obj i (Obj len (s_lastid s2) num bs) s2 in
          (Shm (s_names s3) (s_objs s3) (s_next s3) (wrap64 (s_lastid s3 + 1)), Ret (Mgr n i len rem)).

(** The constructor that maps an existing object, lines 58-80. *)
Definition attach (n : string) (s : shm) : outcome sbexc mgr :=
  match s_names s n with
  | None => Throw EMap
  | Some i => if ob_size (s_objs s i) =? 0 then Throw EMap else Ret (Mgr n i (ob_size (s_objs s i)) false)
  end.

(** The destructor, lines 82-88. *)
Definition destroy (m : mgr) (s : shm) : shm := if g_remove m then set_name (g_name m) None s else s.

(** get_num_buffers, get_buffer_size, lines 94-102 *)
Definition num_bufs (m : mgr) (s : shm) : outcome sbexc Z := if g_region m <? header_size then Undef else Ret (ob_num (s_objs s (g_obj m))).
Definition buf_size (m : mgr) (s : shm) : outcome sbexc Z := if g_region m <? header_size then Undef else Ret (ob_bs (s_objs s (g_obj m))).
(** get_buffer_address, lines 104-113, as offset from the start of the mapping.  [b]: unsigned int; the product is a size_t. *)
Definition address (m : mgr) (b : Z) (s : shm) : outcome sbexc Z :=
  if g_region m <? header_size then Undef
  else let o := s_objs s (g_obj m) in
    if ob_num o <=? b then Throw EIndex else Ret (header_size + wrap64 (b * ob_bs o)).

(** Managers of all processes. *)
Inductive mop := MCreate (n : string) (size bs : Z) (rem : bool) | MAttach (n : string) | MDestroy (j : nat).
Definition without {A} (j : nat) (l : list A) : list A := firstn j l ++ skipn (S j) l.
(** The managers that exist, in order of construction. *)
Definition mstep (o : mop) (st : shm * list mgr) : option (shm * list mgr) :=
  let '(s, ms) := st in
  match o with
  | MCreate n size bs rem =>
    match create n size bs rem s with (s', Ret m) => Some (s', ms ++ [m]) | (s', Throw _) => Some (s', ms) | (_, Undef) => None end
  | MAttach n => match attach n s with Ret m => Some (s, ms ++ [m]) | Throw _ => Some (s, ms) | Undef => None end
  | MDestroy j => match nth_error ms j with Some m => Some (destroy m s, without j ms) | None => Some (s, ms) end
  end.
Inductive mrun : list mop -> shm * list mgr -> Prop :=
| mr_init : mrun [] (shm_init, [])
| mr_step ops st o st' : mrun ops st -> mstep o st = Some st' -> mrun (ops ++ [o]) st'.
