(** Where the buffers are. *)
From Verif Require Import Base DecModel DecSpec LoopModel.
Local Open Scope Z_scope.

Definition buffers (c : cfg) : list Z := map Z.of_nat (seq 0 (Z.to_nat (num_buffers c))).
(** One entry for each place a buffer is in: empty in the decoder, being filled, on the way to the frame processor, held there,
    on the way back, lost. *)
Definition places (c : cfg) (s : sys) : list Z :=
  d_empty (y_dec s) ++ map snd (d_map (y_dec s)) ++ map r_id (y_ready s) ++ map o_id (y_held s) ++
  flat_map (fun m => match m with Pre => buffers c | Rel id => [id] end) (y_back s) ++ y_lost s.
(** How often the receiver thread was started. *)
Definition starts (ops : list yop) : nat := length (filter (fun o => match o with YStart => true | _ => false end) ops).
Definition writes (ops : list yop) : nat := length (filter (fun o => match o with YWrite _ _ => true | _ => false end) ops).

(** An image of [size] bytes, from [img], with packets of [plen] bytes of which those in [got] arrived. *)
Definition picture (img : Z -> Z) (size plen : Z) (got : list Z) : list Z :=
  map (fun n => let o := Z.of_nat n in if in_dec Z.eq_dec (o / plen) got then img o else 0) (seq 0 (Z.to_nat size)).

(** Packets missing in a buffer whose header says that fewer came in than expected *)
Definition missing (b : buf) : Z :=
  if h_received (b_hdr b) <? h_expected (b_hdr b) then Z.of_nat (List.length (filter (fun i => negb (h_pstate (b_hdr b) (Z.of_nat i))) (seq 0 (Z.to_nat (h_expected (b_hdr b)))))) else 0.
(** Counters of the decoder fit in 31 bits. *)
Definition counted (b : buf) : Prop := 0 <= h_received (b_hdr b) < 2 ^ 31 /\ 0 <= h_expected (b_hdr b) < 2 ^ 31.
