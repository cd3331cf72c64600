(** IpcChannel over ZeroMQ.  common/src/IpcChannel.cpp, common/include/IpcChannel.h.

    Three parts: the endpoints a channel is bound to; the messages between a ROUTER channel and DEALER channels; the identity a DEALER gets.
    ZeroMQ is modelled by what its documentation says.  Not modelled: polling, options, closing; peers that come and go; two peers of the
    same identity (ZeroMQ refuses the second); strings with NUL characters (cut by c_str). *)
From Coq Require Import String Ascii.
From Verif Require Import Base.
Local Open Scope list_scope.
Local Open Scope Z_scope.

(** * Endpoints *)
(** bound_endpoints_ (IpcChannel.h line 78): requested and resolved name; and the addresses the socket listens on *)
Record channel := Channel { c_map : list (string * string); c_listens : list string }.
Definition channel_init : channel := Channel [] [].
Fixpoint look (k : string) (m : list (string * string)) : option string :=
  match m with [] => None | (k', v) :: r => if String.eqb k k' then Some v else look k r end.
Definition erase (k : string) (m : list (string * string)) : list (string * string) := filter (fun x => negb (String.eqb k (fst x))) m.
Inductive result := Done | Thrown.
(** Lines 107-123: [z] is the address that socket_.bind resolves the endpoint to, nothing if it throws.  The resolved name with its final
    NUL has to fit in 256 bytes, or getsockopt throws. *)
Definition bind (ep : string) (z : option string) (c : channel) : channel * result :=
  match z with
  | None => (c, Thrown)
  | Some a =>
    let l := c_listens c ++ [a] in
    if 256 <? Z.of_nat (String.length a) + 1 then (Channel (c_map c) l, Thrown)
    else (Channel ((ep, a) :: erase ep (c_map c)) l, Done)
  end.
(** Lines 144-152: socket_.unbind ends all listening on that address; it throws if there is none. *)
Definition unbind (ep : string) (c : channel) : channel * result :=
  match look ep (c_map c) with
  | None => (c, Done)
  | Some a =>
    if existsb (String.eqb a) (c_listens c) then (Channel (erase ep (c_map c)) (filter (fun x => negb (String.eqb a x)) (c_listens c)), Done)
    else (c, Thrown)
  end.
(** Lines 174-177 *)
Definition has_bound_endpoint (ep : string) (c : channel) : bool := match look ep (c_map c) with Some _ => true | None => false end.
Inductive act := Bind (ep : string) (z : option string) | Unbind (ep : string).
Definition do_act (c : channel) (a : act) : channel := match a with Bind ep z => fst (bind ep z c) | Unbind ep => fst (unbind ep c) end.
Definition acts (h : list act) (c : channel) : channel := fold_left do_act h c.

(** * Messages *)
(** Parts of a message, each with the flag "more follow" *)
Fixpoint flags (l : list string) : list (string * bool) :=
  match l with [] => [] | [p] => [(p, false)] | p :: t => (p, true) :: flags t end.
Definition upd {A} (f : string -> A) (d : string) (v : A) : string -> A := fun x => if String.eqb x d then v else f x.
(** The DEALERs' unfinished messages and those on their way; parts waiting at the ROUTER; an identity received by a recv that still waits
    for the payload; the ROUTER's unfinished message; parts waiting at the DEALERs *)
Record net := Net { n_cur : string -> list string; n_out : string -> list (list string); n_in : list (string * bool); n_half : option string; n_rcur : list string; n_way : string -> list (string * bool) }.
Definition net_init : net := Net (fun _ => []) (fun _ => []) [] None [] (fun _ => []).
(** A DEALER sends (flag ZMQ_SNDMORE or not), a message of it arrives, the ROUTER receives, the ROUTER sends ([lost]: the queue to that peer
    is full, ZeroMQ drops it), a DEALER receives *)
Inductive ev := DSend (d m : string) (more : bool) | Up (d : string) | RRecv | RSend (i m : string) (more lost : bool) | DRecv (d : string).
Inductive out := RGot (i m : string) | DGot (d m : string).
Section Step.
Variable ids : list string.
Definition known (d : string) : bool := existsb (String.eqb d) ids.
(** send, lines 228-243 (256-271, 285-299), router_send_identity 310-316; recv, lines 328-347.  [None]: cannot happen or waits. *)
Definition step (e : ev) (n : net) : option (net * list out) :=
  match n, e with
  | Net c o i h r w, DSend d m more =>
    if negb (known d) then None
    else if more then Some (Net (upd c d (c d ++ [m])) o i h r w, [])
    else Some (Net (upd c d []) (upd o d (o d ++ [c d ++ [m]])) i h r w, [])
  | Net c o i h r w, Up d =>
    match o d with [] => None | x :: t => Some (Net c (upd o d t) (i ++ flags (d :: x)) h r w, []) end
  | Net c o i None r w, RRecv =>
    match i with
    | [] => None
    | [(p, _)] => Some (Net c o [] (Some p) r w, [])
    | (p, _) :: (m, _) :: t => Some (Net c o t None r w, [RGot p m])
    end
  | Net c o i (Some p) r w, RRecv =>
    match i with [] => None | (m, _) :: t => Some (Net c o t None r w, [RGot p m]) end
  | Net c o i (Some _) r w, RSend _ _ _ _ => None
  | Net c o i None r w, RSend p m more lost =>
    let cur := r ++ [p; m] in
    if more then Some (Net c o i None cur w, [])
    else match cur with
         | [] => None
         | d :: body => Some (Net c o i None [] (if (known d && negb lost)%bool then upd w d (w d ++ flags body) else w), [])
         end
  | Net c o i h r w, DRecv d => match w d with [] => None | (m, _) :: t => Some (Net c o i h r (upd w d t), [DGot d m]) end
  end.
Fixpoint steps (l : list ev) (n : net) : option (net * list out) :=
  match l with
  | [] => Some (n, [])
  | e :: t => match step e n with Some (n1, o1) => match steps t n1 with Some (n2, o2) => Some (n2, o1 ++ o2) | None => None end | None => None end
  end.
End Step.

(** * Identities *)
(** A number as a float: 24 bits, to nearest, ties to even *)
Definition as_float (r : Z) : Z :=
  if r <? 2^24 then r
  else
    let e := Z.log2 r - 23 in
    let q := r / 2^e in
    let m := r mod 2^e in
    if (m <? 2^(e-1)) || ((m =? 2^(e-1)) && Z.even q) then q * 2^e else (q + 1) * 2^e.
(** within, line 11: random() becomes a float; the product and the quotient only change the exponent *)
Definition within (num r : Z) : Z := num * as_float r / 2^31.
Definition digit (v : Z) : ascii := ascii_of_nat (Z.to_nat (if v <? 10 then v + 48 else v + 87)).
Fixpoint hex (n : nat) (v : Z) : list ascii := match n with O => [] | S n => if v <? 16 then [digit v] else hex n (v / 16) ++ [digit (v mod 16)] end.
(** %04x *)
Definition hex4 (v : Z) : list ascii := let s := hex 8 v in repeat (digit 0) (4 - List.length s) ++ s.
(** Lines 63-70: what sprintf writes for two results of random(), without the final NUL *)
Definition identity (r1 r2 : Z) : list ascii := hex4 (within 65536 r1) ++ ["-"%char] ++ hex4 (within 65536 r2).
(** Line 67 *)
Definition identity_size : Z := 10.
