(** C63: frames over TCP. *)
From Verif Require Import Base TcpModel TcpSpec TcpProofs.
Local Open Scope Z_scope.

(** However the bytes arrive and whichever connections are served: the last five frames are in their buffers, each with the next 1000 bytes of its connection, and the rest of each stream is still to be read.  Missing: connections that end or fail, fewer than five buffers (refuted below). *)
Theorem c63_frames_partial num mem cs l cs2 s : 5 <= num -> (forall k, healthy (cs k)) -> served cs (tcp_init num mem) l cs2 s ->
  (forall i k, nth_error l i = Some k -> (length l - i <= 5)%nat -> has_frame s (Z.of_nat (i + 1) mod 5) (frame_of (stream (cs k)) (times k (firstn i l)))) /\
  (forall k, (1000 * times k l <= length (stream (cs k)))%nat /\ stream (cs2 k) = skipn (1000 * times k l) (stream (cs k))).
Proof. intros N H S. destruct (served_state num mem cs N H l cs2 s S) as (_ & _ & _ & _ & A & B & _). split; [exact B|]. intros k. apply A. Qed.
(** Nothing else is written. *)
Theorem c63_elsewhere_partial num mem cs l cs2 s a : 5 <= num -> (forall k, healthy (cs k)) -> served cs (tcp_init num mem) l cs2 s -> t_mem s a <> mem a -> exists b x, 0 <= b < 5 /\ 0 <= x < 1000 /\ a = 24 + b * 5000 + x.
Proof. intros N H S. destruct (served_state num mem cs N H l cs2 s S) as (_ & _ & _ & _ & _ & _ & C). apply C. Qed.
(** A connection is served if a whole frame has arrived; otherwise the thread waits for the rest of it. *)
Theorem c63_returns_partial num mem cs l cs2 s k : 5 <= num -> (forall k, healthy (cs k)) -> served cs (tcp_init num mem) l cs2 s ->
  ((1000 <= length (stream (cs2 k)))%nat -> exists c1 s1, handle_receive (cs2 k) s = (c1, s1, Returned)) /\ ((length (stream (cs2 k)) < 1000)%nat -> snd (handle_receive (cs2 k) s) = Waits).
Proof.
  intros N H S. destruct (served_state num mem cs N H l cs2 s S) as (B & _ & _ & _ & A & _). split; intros L; [|apply handle_waits; [exact B|apply A|exact L]].
  destruct (handle_frame (cs2 k) s B (proj1 (A k)) L) as (c1 & s1 & E & _). exists c1, s1. exact E.
Qed.
(** No frame is ever announced to the controller. *)
Theorem c63_announced_refuted num mem cs l cs2 s : 5 <= num -> (forall k, healthy (cs k)) -> served cs (tcp_init num mem) l cs2 s -> t_ready s = [].
Proof. intros N H S. apply (served_state num mem cs N H l cs2 s S). Qed.

(** ** Examples *)
Definition byte (n : nat) : Z := Z.of_nat n mod 251.
Definition some_bytes (from n : nat) : list Z := map byte (seq from n).
(** Two connections: frames in pieces of 700, 1 and 1800 bytes, and all at once *)
Definition pieces : conn := [Bytes (some_bytes 0 700); Bytes (some_bytes 700 1); Bytes (some_bytes 701 1800)].
Definition at_once : conn := [Bytes (some_bytes 7 1200)].
Definition two_conns (k : nat) : conn := match k with O => pieces | 1%nat => at_once | _ => [] end.
Definition seen (s : tcp) (b : Z) (n : nat) : list Z := map (fun x => t_mem s (24 + b * 5000 + Z.of_nat x)) (seq 0 n).
Fixpoint serving (l : list nat) (cs : nat -> conn) (s : tcp) : (nat -> conn) * tcp * bool :=
  match l with
  | [] => (cs, s, true)
  | k :: r => let '(c1, s1, e) := handle_receive (cs k) s in let '(cs2, s2, b) := serving r (on cs k c1) s1 in (cs2, s2, match cs k, e with _ :: _, Returned => b | _, _ => false end)
  end.
Lemma serving_served l : forall cs s, snd (serving l cs s) = true -> served cs s l (fst (fst (serving l cs s))) (snd (fst (serving l cs s))).
Proof.
  induction l as [|k l IH]; intros cs s H; [constructor|]. cbn in *. destruct (handle_receive (cs k) s) as ((c1 & s1) & e) eqn:E. specialize (IH (on cs k c1) s1). destruct (serving l (on cs k c1) s1) as ((cs2 & s2) & b). cbn in *. destruct (cs k) eqn:EK; [discriminate|]. destruct e; try discriminate.
  eapply sv_one; [rewrite EK; discriminate|rewrite EK; exact E|]. apply IH, H.
Qed.
Definition blank (_ : Z) : Z := 0.
Example c63_case : (forall k, healthy (two_conns k)) /\ exists cs2 s, served two_conns (tcp_init 5 blank) [0; 1; 0]%nat cs2 s /\ seen s 1 1000 = some_bytes 0 1000 /\ seen s 2 1000 = some_bytes 7 1000 /\ seen s 3 1000 = some_bytes 1000 1000 /\ stream (cs2 O) = some_bytes 2000 501 /\ stream (cs2 1%nat) = some_bytes 1007 200.
Proof.
  split; [intros [|[|k]] a I; [destruct I as [<-|[<-|[<-|[]]]]|destruct I as [<-|[]]|destruct I]; eexists; reflexivity|].
  exists (fst (fst (serving [0; 1; 0]%nat two_conns (tcp_init 5 blank)))), (snd (fst (serving [0; 1; 0]%nat two_conns (tcp_init 5 blank)))). split; [apply serving_served; vm_compute; reflexivity|]. vm_compute. repeat split.
Qed.

(** ** What fails *)
Definition many : conn := [Bytes (some_bytes 0 6000)].
Definition one_conn (c : conn) (k : nat) : conn := match k with O => c | _ => [] end.
Lemma one_healthy c : healthy c -> forall k, healthy (one_conn c k).
Proof. intros H [|k]; [exact H|intros a []]. Qed.
Lemma many_healthy : healthy many.
Proof. intros a [<-|[]]. eexists. reflexivity. Qed.
Definition six : list nat := [0; 0; 0; 0; 0; 0]%nat.
(** The sixth frame is written over the first, whether or not that was used. *)
Theorem c63_kept_refuted : exists cs l cs2 s, (forall k, healthy (cs k)) /\ served cs (tcp_init 5 blank) l cs2 s /\ nth_error l 0 = Some 0%nat /\ ~ has_frame s 1 (frame_of (stream (cs 0%nat)) 0).
Proof.
  exists (one_conn many), six, (fst (fst (serving six (one_conn many) (tcp_init 5 blank)))), (snd (fst (serving six (one_conn many) (tcp_init 5 blank)))). split; [apply one_healthy, many_healthy|]. split; [apply serving_served; vm_compute; reflexivity|]. split; [reflexivity|]. intros H. specialize (H 0%nat ltac:(lia)).
  assert (E1 : t_mem (snd (fst (serving six (one_conn many) (tcp_init 5 blank)))) (24 + 1 * 5000 + Z.of_nat 0) = byte 5000) by (vm_compute; reflexivity).
  assert (E2 : nth 0 (frame_of (stream (one_conn many 0)) 0) 0 = 0) by (vm_compute; reflexivity). rewrite E1, E2 in H. assert (E3 : byte 5000 = 231) by reflexivity. congruence.
Qed.
(** With fewer than five buffers the thread ends with an exception, although there were buffers for the frames before. *)
Theorem c63_buffers_refuted : exists cs l cs2 s, (forall k, healthy (cs k)) /\ served cs (tcp_init 4 blank) l cs2 s /\ (1000 <= length (stream (cs2 0%nat)))%nat /\ snd (handle_receive (cs2 0%nat) s) = Raised.
Proof.
  exists (one_conn many), [0; 0; 0]%nat, (fst (fst (serving [0; 0; 0]%nat (one_conn many) (tcp_init 4 blank)))), (snd (fst (serving [0; 0; 0]%nat (one_conn many) (tcp_init 4 blank)))). split; [apply one_healthy, many_healthy|]. split; [apply serving_served; vm_compute; reflexivity|]. split; [|vm_compute; reflexivity].
  apply Nat.leb_le. vm_compute. reflexivity.
Qed.
(** When the other side closes the connection, the thread never leaves the loop: no connection is served again. *)
Theorem c63_closed_refuted num mem cs l cs2 s c r : 5 <= num -> (forall k, healthy (cs k)) -> served cs (tcp_init num mem) l cs2 s -> healthy c -> (length (stream c) < 1000)%nat -> snd (handle_receive (c ++ Closed :: r) s) = Loops.
Proof. intros N H S HC L. destruct (served_state num mem cs N H l cs2 s S) as (B & _). apply handle_closed; assumption. Qed.
(** An error of read between frames ends the thread with an exception; *)
Theorem c63_failed_refuted num mem cs l cs2 s r : 5 <= num -> (forall k, healthy (cs k)) -> served cs (tcp_init num mem) l cs2 s -> snd (handle_receive (Failed :: r) s) = Raised.
Proof. intros N H S. destruct (served_state num mem cs N H l cs2 s S) as (B & _). apply handle_failed; assumption. Qed.
(** within a frame it replaces a byte that was received before. *)
Theorem c63_interrupted_refuted : exists a b s1, length a = 300%nat /\ length b = 701%nat /\ handle_receive [Bytes a; Failed; Bytes b] (tcp_init 5 blank) = ([], s1, Returned) /\ has_frame s1 1 (firstn 299 a ++ b) /\ nth 299 (firstn 299 a ++ b) 0 <> nth 299 a 0.
Proof.
  exists (some_bytes 0 300), (some_bytes 300 701), (snd (fst (handle_receive [Bytes (some_bytes 0 300); Failed; Bytes (some_bytes 300 701)] (tcp_init 5 blank)))). split; [reflexivity|]. split; [reflexivity|].
  set (h := handle_receive _ _).
  assert (E1 : fst (fst h) = []) by (vm_compute; reflexivity). assert (E2 : snd h = Returned) by (vm_compute; reflexivity).
  split; [destruct h as ((c & s) & e); cbn in *; subst; reflexivity|]. split; [|vm_compute; discriminate].
  assert (E3 : seen (snd (fst h)) 1 1000 = firstn 299 (some_bytes 0 300) ++ some_bytes 300 701) by (vm_compute; reflexivity).
  intros x X. rewrite <- E3. unfold seen. set (f := fun y : nat => t_mem (snd (fst h)) (24 + 1 * 5000 + Z.of_nat y)). rewrite (nth_indep _ 0 (f 0%nat)) by (rewrite map_length, seq_length; exact X). rewrite (map_nth f), seq_nth by exact X. reflexivity.
Qed.

Print Assumptions c63_frames_partial.
Print Assumptions c63_elsewhere_partial.
Print Assumptions c63_returns_partial.
Print Assumptions c63_announced_refuted.
Print Assumptions c63_kept_refuted.
Print Assumptions c63_buffers_refuted.
Print Assumptions c63_closed_refuted.
Print Assumptions c63_failed_refuted.
Print Assumptions c63_interrupted_refuted.
