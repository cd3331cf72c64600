(** What a user of IpcChannel expects. *)
From Coq Require Import String Ascii.
From Verif Require Import Base IpcModel.
Local Open Scope list_scope.
Local Open Scope Z_scope.

(** Endpoint [ep] was bound at address [a] and not unbound since. *)
Definition holds (h : list act) (ep a : string) : Prop := exists x y, h = x ++ Bind ep (Some a) :: y /\ ~ In (Unbind ep) y.
(** No endpoint is bound again before it is unbound, no address is used by two endpoints, addresses fit in 255 characters. *)
Definition once (h : list act) : Prop := forall x ep a y, h = x ++ Bind ep (Some a) :: y ->
  (String.length a < 256)%nat /\ (forall a', ~ holds x ep a') /\ forall ep', ~ holds x ep' a.

(** Messages sent by a DEALER; received from it by the ROUTER; sent to it; received by it *)
Fixpoint sent (d : string) (h : list ev) : list string := match h with [] => [] | DSend d' m _ :: t => if string_dec d' d then m :: sent d t else sent d t | _ :: t => sent d t end.
Fixpoint received (d : string) (o : list out) : list string := match o with [] => [] | RGot d' m :: t => if string_dec d' d then m :: received d t else received d t | _ :: t => received d t end.
Fixpoint addressed (d : string) (h : list ev) : list string := match h with [] => [] | RSend d' m _ false :: t => if string_dec d' d then m :: addressed d t else addressed d t | _ :: t => addressed d t end.
Fixpoint got (d : string) (o : list out) : list string := match o with [] => [] | DGot d' m :: t => if string_dec d' d then m :: got d t else got d t | _ :: t => got d t end.
(** Messages have one part. *)
Definition single_requests (h : list ev) : Prop := forall d m, ~ In (DSend d m true) h.
Definition single_replies (h : list ev) : Prop := forall d m l, ~ In (RSend d m true l) h.

(** Numbers a float can hold (as far as needed here) *)
Definition representable (x : Z) : Prop := exists m e, 0 <= m < 2^24 /\ 0 <= e /\ x = m * 2^e.
Definition is_hex (c : ascii) : Prop := In c ["0"; "1"; "2"; "3"; "4"; "5"; "6"; "7"; "8"; "9"; "a"; "b"; "c"; "d"; "e"; "f"]%char.
