(** What HDF5File writes and flushes, as a reader of the open file (SWMR) sees it. *)
From Coq Require Import String.
From Verif Require Import Base.
Local Open Scope list_scope.
Local Open Scope Z_scope.

(** What reaches the HDF5 library with success, in order. *)
Inductive hev :=
| EvWrite (ds : string) (off : Z) (v : Z)
| EvFlush (ds : string)
| EvClose.

(** A call of HDF5File with what the library and the clock answer.  [pre]: everything before the write succeeds (the
    dataset and the parameter exist, the extension and the selection are accepted); [wr], [sp], [fl]: H5Dwrite or
    H5DOwrite_chunk, H5Sclose and H5Dflush succeed.  [now], [again]: the two readings of the local clock, in
    microseconds.  Values are numbers here; C11 and C79 say which values and offsets are written. *)
Inductive hcall :=
| Frame (ds : string) (off v : Z) (pre wr fl : bool)
| Param (ds : string) (off v : Z) (now again : Z) (pre wr sp fl : bool)
| Close (ok : bool).

(** frameProcessor/include/HDF5File.h:138 last_flushed, and whether the datasets are still open. *)
Record hst := Hst { h_last : list (string * Z); h_open : bool }.
Definition hst0 : hst := Hst [] true.

(** frameProcessor/include/HDF5File.h:110. *)
Definition flush_rate : Z := 1000.

(** std::map::find. *)
Fixpoint last_of (d : string) (m : list (string * Z)) : option Z :=
  match m with
  | [] => None
  | (k, t) :: r => if String.eqb k d then Some t else last_of d r
  end.

(** frameProcessor/src/HDF5File.cpp:368-385: whether to flush, and the times afterwards.  total_milliseconds() cuts off.
    A new time is put in front of the list, which hides the old one. *)
Definition flush_due (m : list (string * Z)) (d : string) (now again : Z) : bool * list (string * Z) :=
  match last_of d m with
  | Some t => if flush_rate <? Z.quot (now - t) 1000 then (true, (d, again) :: m) else (false, m)
  | None => (true, (d, now) :: m)
  end.

(** One call: the state, the events, and whether it returned (false: it threw).  [earliest]: use_earliest_version_.
    frameProcessor/src/HDF5File.cpp:228-281 write_frame, 290-395 write_parameter, 194-217 close_file.  Simplified: the
    library is 1.9.178 or later; a close that fails leaves the datasets closed and the file unflushed, and a second attempt is not modelled; durations are
    left out; the data space leaked when H5Dwrite fails is left out. *)
Definition hstep (earliest : bool) (s : hst) (c : hcall) : hst * list hev * bool :=
  match c with
  | Frame d o v pre wr fl =>
    if negb (h_open s && pre && wr) then (s, [], false)
    else if earliest then (s, [EvWrite d o v], true)
    else if fl then (s, [EvWrite d o v; EvFlush d], true)
    else (s, [EvWrite d o v], false)
  | Param d o v now again pre wr sp fl =>
    if negb (h_open s && pre && wr) then (s, [], false)
    else if negb sp then (s, [EvWrite d o v], false)
    else
      let (due, m) := flush_due (h_last s) d now again in
      let s' := Hst m (h_open s) in
      if due && negb earliest then
        if fl then (s', [EvWrite d o v; EvFlush d], true) else (s', [EvWrite d o v], false)
      else (s', [EvWrite d o v], true)
  | Close ok =>
    if h_open s then (Hst (h_last s) false, if ok then [EvClose] else [], ok) else (s, [], true)
  end.

(** The calls one after the other (the mutex admits one at a time); the caller goes on after an exception, as
    FileWriterPlugin does (frameProcessor/src/Acquisition.cpp:84-204 process_frame catches it). *)
Fixpoint hrun (earliest : bool) (s : hst) (cs : list hcall) : hst * list hev :=
  match cs with
  | [] => (s, [])
  | c :: r =>
    let '(s1, e1, _) := hstep earliest s c in
    let '(s2, e2) := hrun earliest s1 r in
    (s2, e1 ++ e2)
  end.
