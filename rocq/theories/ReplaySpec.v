(** What replaying frames should send. *)
From Coq Require Import String Ascii.
From Verif Require Import Base LiveModel SimModel ReplayModel.
Local Open Scope Z_scope.

(** The elements at the positions that are not left out. *)
Definition kept {A} (out : nat -> bool) (l : list A) : list A :=
  map snd (filter (fun x => negb (out (fst x))) (combine (seq 0 (List.length l)) l)).
(** How many are left out. *)
Definition left_out {A} (out : nat -> bool) (l : list A) : nat := List.length (filter out (seq 0 (List.length l))).
(** Left out by chance; named in the list of packets to drop, as a decimal number. *)
Definition unlucky (o : opts) (f p : nat) : bool := match o_frac o with Some lot => lot f p | None => false end.
Definition listed (o : opts) (p : nat) : bool :=
  match o_list o with Some l => if in_dec string_dec (decimal (Z.of_nat p)) l then true else false | None => false end.
(** How many frames are replayed. *)
Definition asked (o : opts) (fs : list uframe) : nat := Z.to_nat (match o_frames o with Some n => n | None => Z.of_nat (List.length fs) end).
(** The packets of the [f]-th frame replayed: the frames in a circle. *)
Definition source (fs : list uframe) (f : nat) : list pkt := u_pkts (nth (Nat.modulo f (List.length fs)) fs (UFrame 0 [] [] [])).
(** The packets not listed and not left out by chance. *)
Definition to_send (o : opts) (fs : list uframe) (f : nat) : list pkt := kept (fun p => unlucky o f p || listed o p) (source fs f).
(** All packets to be sent when frame [f] goes to port [port f]. *)
Definition stream (port : nat -> Z) (o : opts) (fs : list uframe) : list (Z * pkt) :=
  flat_map (fun f => map (pair (port f)) (to_send o fs f)) (seq 0 (asked o fs)).
Definition total (f : nat -> nat) (n : nat) : nat := fold_right (fun i a => (f i + a)%nat) O (seq 0 n).
Definition bytes (result : nat -> Z) (n : nat) : Z := fold_right (fun i a => result i + a) 0 (seq 0 n).

(** The bytes of a packet and of a frame on the wire: any Ethernet header, an IP header of [ihl] words, any UDP header. *)
Definition split4 (z : Z) : list Z := [z mod 256; z / 256 mod 256; z / 2 ^ 16 mod 256; z / 2 ^ 24 mod 256].
Definition datagram (p : pkt) : list Z := split4 (k_frame p) ++ split4 (k_flags p) ++ k_data p.
Definition captures (c : list Z * Z) (p : pkt) : Prop :=
  exists ether b ip udp rest, List.length ether = 14%nat /\ Z.of_nat (List.length (b :: ip)) = 4 * (b mod 16) /\ List.length udp = 8%nat /\
    fst c = ether ++ (b :: ip) ++ udp ++ datagram p ++ rest /\ snd c = Z.of_nat (List.length (ether ++ (b :: ip) ++ udp ++ datagram p)).

(** Texts with [n + 1] commas between one and the next *)
Fixpoint spread (l : list (string * nat)) (last : string) : string := match l with [] => last | (s, n) :: r => append s (append (String.concat ""%string (repeat ","%string (S n))) (spread r last)) end.
