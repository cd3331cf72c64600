(** What the receiver thread is to hold and to give back. *)
From Verif Require Import Base RxlModel.

(** Sockets of receiver threads, and descriptors of the rest of the program. *)
Definition sockets (t : table) : table := filter (fun e => match snd e with Foreign => false | _ => true end) t.
Definition foreign (t : table) : list Z := map fst (filter (fun e => match snd e with Foreign => true | _ => false end) t).
(** What the rest of the program opened and closed. *)
Definition elsewhere (l : list lab) (k : list Z) : list Z := fold_left (fun k x => match x with Open fd => k ++ [fd] | Shut fd => filter (fun d => negb (d =? fd)%Z) k | _ => k end) l k.
(** A table as the kernel keeps it: each descriptor once, none negative, no two sockets on one port. *)
Definition sane (t : table) : Prop := NoDup (map fst t) /\ (forall e, In e t -> (0 <= fst e)%Z) /\
  (forall d a p e b q, In (d, Bound a p) t -> In (e, Bound b q) t -> d <> e -> clash a p b q = false).
(** One socket for each port, made for it. *)
Definition listens (f : cfg) (t : table) (socks ports : list Z) : Prop :=
  match f_kind f with
  | UDP => Forall2 (fun fd p => exists a, f_addr f = Some a /\ In (fd, Bound a p) t) socks ports
  | TCP => Forall2 (fun fd p => In (fd, Conn) t) socks ports
  | ZMQ => socks = []
  end.
(** In the reactor. *)
Definition serving (t : tpc) : Prop := match t with TAnnounce | TLoop | TSend | TRead _ => True | _ => False end.
Definition released (l : list lab) : list Z := flat_map (fun x => match x with Release id => [id] | _ => [] end) l.
Definition no_stop (l : list lab) : Prop := Forall (fun x => x <> Stop) l.
Definition starts_with (P : cfg -> Prop) (l : list lab) : Prop := Forall (fun x => match x with Start f => P f | _ => True end) l.
(** The steps of the receiver thread itself and the return of join(). *)
Definition own_step (x : lab) : Prop := match x with Thread _ | Socket _ _ _ | Tick | Joined => True | _ => False end.
(** The shift on a machine that takes the count modulo 32. *)
Definition modulo32 (n : N) : bool := negb (N.shiftr n (1000 mod 32) =? 0)%N.
