(** The loading of classes by name (plugins and decoders). *)
From Coq Require Import String.
From Verif Require Import Base.
Local Open Scope list_scope.
Local Open Scope Z_scope.

(** What a maker does: it makes an object of a class, or its constructor throws a std::exception or something else. *)
Inductive maker := Makes (cls : Z) | ThrowsStd | ThrowsOther.

(** The libraries: what dlopen of a path finds, None if it fails.  Opening a library for the first time runs its REGISTER
    objects, in order: names and makers. *)
Definition libraries := string -> option (list (string * maker)).

(** common/include/ClassLoader.h:101-105 factory_map, and the libraries opened so far (never closed).  Simplified: one
    base class; paths that name the same file are the same string. *)
Record loader := Loader { f_map : list (string * maker); f_open : list string }.
Definition loader0 : loader := Loader [] [].

(** std::map::operator[] with assignment, common/include/ClassLoader.h:52-55: the constructor of ClassLoader. *)
Fixpoint reg (n : string) (k : maker) (m : list (string * maker)) : list (string * maker) :=
  match m with
  | [] => [(n, k)]
  | (n', k') :: r => if String.eqb n' n then (n, k) :: r else (n', k') :: reg n k r
  end.

(** std::map::find. *)
Fixpoint fetch (n : string) (m : list (string * maker)) : option maker :=
  match m with
  | [] => None
  | (n', k) :: r => if String.eqb n' n then Some k else fetch n r
  end.

(** dlopen: None if it fails; a library that is open already registers nothing again. *)
Definition dlopen (L : libraries) (s : loader) (p : string) : option loader :=
  match L p with
  | None => None
  | Some regs =>
    if existsb (String.eqb p) (f_open s) then Some s
    else Some (Loader (fold_left (fun m x => reg (fst x) (snd x) m) regs (f_map s)) (f_open s ++ [p]))
  end.

(** What load_class gives: an object of a class, a null pointer, the runtime_error with dlerror(), or what the
    constructor threw. *)
Inductive loaded := Object (cls : Z) | Null | LibError | Thrown.

(** common/include/ClassLoader.h:84-93: the lookup and the call of the maker. *)
Definition make (n : string) (m : list (string * maker)) : loaded :=
  match fetch n m with
  | Some (Makes c) => Object c
  | Some ThrowsStd | None => Null
  | Some ThrowsOther => Thrown
  end.

(** common/include/ClassLoader.h:62-94, 113-116: load_class, is_registered. *)
Definition load_class (L : libraries) (s : loader) (n p : string) : loader * loaded :=
  match fetch n (f_map s) with
  | Some _ => (s, make n (f_map s))
  | None =>
    match dlopen L s p with
    | None => (s, LibError)
    | Some s' => (s', make n (f_map s'))
    end
  end.

(** Any number of requests, name and path each. *)
Fixpoint loads (L : libraries) (s : loader) (rs : list (string * string)) : loader * list loaded :=
  match rs with
  | [] => (s, [])
  | (n, p) :: r =>
    let (s1, x) := load_class L s n p in
    let (s2, xs) := loads L s1 r in
    (s2, x :: xs)
  end.
