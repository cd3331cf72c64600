(** What goes into the receiver and what comes out of it, read off a history. *)
From Verif Require Import Base DecModel.
Local Open Scope Z_scope.

Definition trace := list (dop * list ready).

(** The packets of frame k that arrived (number, payload), in order of arrival. *)
Definition sent (k : Z) (tr : trace) : list (Z * list Z) :=
  flat_map (fun e => match fst e with Packet fn fl p _ => if fn =? k then [(fl mod 2 ^ 30, p)] else [] | _ => [] end) tr.
(** The buffers handed over as frame k. *)
Definition handed (k : Z) (tr : trace) : list ready := filter (fun x => r_frame x =? i32 k) (flat_map snd tr).

(** How often buffer [id] was given to the receiver and handed over by it. *)
Definition pushes (id : Z) (tr : trace) : nat :=
  count_occ Z.eq_dec (flat_map (fun e => match fst e with Push i => [i] | _ => [] end) tr) id.
Definition readys (id : Z) (tr : trace) : nat := count_occ Z.eq_dec (map r_id (flat_map snd tr)) id.

(** Frame numbers and flags are 32 bit; the number 2^32 - 1 is not used. *)
Definition wf (tr : trace) : Prop := forall o r, In (o, r) tr ->
  match o with Packet fn fl _ _ => 0 <= fn < 2 ^ 32 - 1 /\ 0 <= fl < 2 ^ 32 | _ => True end.
(** Buffers given to the receiver exist and are not in its possession; others do not write into buffers in its possession. *)
Definition env_ok (c : cfg) (tr : trace) : Prop := forall tr1 o r tr2, tr = tr1 ++ (o, r) :: tr2 ->
  match o with
  | Push id => 0 <= id < num_buffers c /\ pushes id tr1 = readys id tr1
  | Touch id _ => pushes id tr1 = readys id tr1
  | _ => True
  end.
Definition is_packet (o : dop) : bool := match o with Packet _ _ _ _ => true | _ => false end.
(** No packet of a frame that has timed out follows directly (without a packet of another frame in between). *)
Definition no_late (tr : trace) : Prop := forall tr1 fn fl p t r mid fl' p' t' r' tr2,
  tr = tr1 ++ (Packet fn fl p t, r) :: mid ++ (Packet fn fl' p' t', r') :: tr2 ->
  (forall e, In e mid -> is_packet (fst e) = false) -> ~ exists e x, In e mid /\ In x (snd e) /\ r_frame x = i32 fn.
(** Packet numbers below the configured number. *)
Definition in_frame (c : cfg) (tr : trace) : Prop := forall o r, In (o, r) tr ->
  match o with Packet _ fl _ _ => fl mod 2 ^ 30 < ppf c | _ => True end.
Definition no_reset (tr : trace) : Prop := forall r, ~ In (ResetStats, r) tr.

(** The payload of packet [i] that came last. *)
Definition last_payload (i : Z) (pk : list (Z * list Z)) : option (list Z) :=
  fold_left (fun a e => if fst e =? i then Some (snd e) else a) pk None.

(** Buffer [b] holds the packets [pk] of frame [k]. *)
Record holds (c : cfg) (k : Z) (pk : list (Z * list Z)) (b : buf) : Prop := Holds {
  ho_frame : h_frame (b_hdr b) = k;
  ho_expected : h_expected (b_hdr b) = ppf c;
  ho_psize : h_psize (b_hdr b) = psize c;
  ho_received : h_received (b_hdr b) = Z.of_nat (length pk) mod 2 ^ 32;
  ho_state : forall i, h_pstate (b_hdr b) i = true <-> In i (map fst pk);
  ho_data : forall i pl o, last_payload i pk = Some pl -> 0 <= o < Z.min (Z.of_nat (length pl)) (psize c) ->
    b_data b (psize c * i + o) = nth (Z.to_nat o) pl 0 }.

(** Subsequence. *)
Inductive subseq {A} : list A -> list A -> Prop :=
| sub_nil : subseq [] []
| sub_skip x a b : subseq a b -> subseq a (x :: b)
| sub_keep x a b : subseq a b -> subseq (x :: a) (x :: b).
