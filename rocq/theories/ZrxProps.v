(** Property C81: messages of several parts reach a ZMQ decoder whole and in order. *)
From Verif Require Import Base ZrxModel ZrxSpec.
Local Open Scope list_scope.
Local Open Scope nat_scope.

Lemma peek_from mem at_ l : forall pre, peek (copy mem at_ (pre ++ l)) (at_ + N.of_nat (List.length pre))%N (List.length l) = l.
Proof.
  induction l as [|b l IH]; intros pre; [reflexivity|]. unfold peek in *. cbn [List.length seq map]. f_equal.
  - unfold copy. destruct (N.ltb_spec (at_ + N.of_nat (List.length pre) + N.of_nat 0)%N at_); [lia|].
    replace (N.to_nat (at_ + N.of_nat (List.length pre) + N.of_nat 0 - at_)%N) with (List.length pre) by lia.
    rewrite nth_error_app2 by lia. rewrite Nat.sub_diag. reflexivity.
  - rewrite <- seq_shift, map_map. specialize (IH (pre ++ [b])). rewrite <- app_assoc in IH. cbn [app] in IH. rewrite <- IH at 2.
    apply map_ext. intros i. f_equal. rewrite app_length. cbn. lia.
Qed.
Lemma peek_copy mem at_ l : peek (copy mem at_ l) at_ (List.length l) = l.
Proof. pose proof (peek_from mem at_ l []) as H. cbn [app List.length] in H. rewrite N.add_0_r in H. exact H. Qed.

(** What one call tells. *)
Definition told_of (p : zpart) : list told := Part (fst p) :: (if snd p then [] else [Complete 1]).

Lemma handle_one {D} (c : decoder D) n s p rest : allocates c n -> (N.of_nat (List.length (fst p)) <= n)%N -> z_queue s = p :: rest ->
  exists s1, handle_receive_socket (Some c) s = Ret s1 /\ z_queue s1 = rest /\ z_told s1 = z_told s ++ told_of p.
Proof.
  intros A L Q. unfold handle_receive_socket. specialize (A (z_dec s)). destruct (d_next c (z_dec s)) as [d1 [at_ room]]. cbn in A. rewrite Q. destruct p as [b more]. cbn [fst] in *.
  destruct (N.ltb_spec room (N.of_nat (List.length b))); [lia|]. cbv zeta. rewrite Nnat.Nat2N.id, peek_copy.
  destruct more; cbn [negb]; eexists; (split; [reflexivity|]); cbn; rewrite <- ?app_assoc; auto.
Qed.
Lemma handle_many {D} (c : decoder D) n : forall q s rest, allocates c n -> (forall p, In p q -> (N.of_nat (List.length (fst p)) <= n)%N) -> z_queue s = q ++ rest ->
  exists s1, handle_times (Some c) (List.length q) s = Ret s1 /\ z_queue s1 = rest /\ z_told s1 = z_told s ++ flat_map told_of q.
Proof.
  induction q as [|p q IH]; intros s rest A L Q. { exists s. cbn. rewrite app_nil_r. auto. }
  destruct (handle_one c n s p (q ++ rest) A (L p (or_introl eq_refl)) Q) as (s1 & H1 & Q1 & T1).
  destruct (IH s1 rest A (fun x h => L x (or_intror h)) Q1) as (s2 & H2 & Q2 & T2). exists s2. cbn [List.length handle_times]. rewrite H1, H2. split; [reflexivity|]. split; [exact Q2|].
  rewrite T2, T1, <- app_assoc. reflexivity.
Qed.
Lemma told_parts m : m <> [] -> flat_map told_of (parts_of m) = map Part m ++ [Complete 1].
Proof.
  induction m as [|p [|q r] IH]; intros H; [congruence|reflexivity|]. change (parts_of (p :: q :: r)) with ((p, true) :: parts_of (q :: r)).
  cbn [flat_map]. rewrite IH by discriminate. reflexivity.
Qed.
Lemma told_arrives ms : (forall m, In m ms -> m <> []) -> flat_map told_of (arrives ms) = story ms.
Proof.
  induction ms as [|m ms IH]; intros H; [reflexivity|]. unfold arrives, story in *. cbn [flat_map]. rewrite flat_map_app, told_parts by (apply H; left; reflexivity).
  rewrite IH by (intros; apply H; right; assumption). reflexivity.
Qed.
Lemma parts_length m : List.length (parts_of m) = List.length m.
Proof. induction m as [|p [|q r] IH]; [reflexivity..|]. change (parts_of (p :: q :: r)) with ((p, true) :: parts_of (q :: r)). cbn [List.length] in *. rewrite IH. reflexivity. Qed.
Lemma parts_in m p : In p (parts_of m) -> In (fst p) m.
Proof. induction m as [|x [|q r] IH]; [intros []|intros [<-|[]]; left; reflexivity|]. change (parts_of (x :: q :: r)) with ((x, true) :: parts_of (q :: r)). intros [<-|H]; [left; reflexivity|right; auto]. Qed.

(** C81, partial.  If no part is longer than what the decoder allocates, then after as many calls as there are parts the
    decoder has been told exactly the messages: their parts in order, byte for byte where it asked for them, and after
    the last part of each message, once, that it is complete.  Missing: longer parts (refuted below). *)
Theorem c81_messages_partial : forall D (c : decoder D) n ms s,
  allocates c n -> (forall m p, In m ms -> In p m -> (N.of_nat (List.length p) <= n)%N) -> (forall m, In m ms -> m <> []) ->
  z_queue s = arrives ms -> z_told s = [] ->
  exists s1, handle_times (Some c) (List.length (concat ms)) s = Ret s1 /\ z_queue s1 = [] /\ z_told s1 = story ms.
Proof.
  intros D c n ms s A L E Q T.
  assert (Len : List.length (arrives ms) = List.length (concat ms)).
  { clear. unfold arrives. induction ms as [|m ms IH]; [reflexivity|]. cbn. rewrite !app_length, IH, parts_length. reflexivity. }
  rewrite <- Len. destruct (handle_many c n (arrives ms) s [] A) as (s1 & H1 & Q1 & T1).
  - intros p Hp. unfold arrives in Hp. apply in_flat_map in Hp. destruct Hp as (m & Hm & Hp). apply (L m); [exact Hm|]. apply parts_in. exact Hp.
  - rewrite app_nil_r. exact Q.
  - exists s1. rewrite T1, T, told_arrives by exact E. auto.
Qed.
Print Assumptions c81_messages_partial.

(** C81, partial.  At any time before that, what it has been told is the beginning of that story: never the end of a
    message before its last part, nothing twice, nothing left out. *)
Theorem c81_prefix_partial : forall D (c : decoder D) n ms s k,
  allocates c n -> (forall m p, In m ms -> In p m -> (N.of_nat (List.length p) <= n)%N) -> (forall m, In m ms -> m <> []) ->
  z_queue s = arrives ms -> z_told s = [] -> k <= List.length (concat ms) ->
  exists s1 later, handle_times (Some c) k s = Ret s1 /\ story ms = z_told s1 ++ later /\
    List.length (filter (fun t => match t with Part _ => true | Complete _ => false end) (z_told s1)) = k.
Proof.
  intros D c n ms s k A L E Q T K.
  assert (Len : List.length (arrives ms) = List.length (concat ms)).
  { clear. unfold arrives. induction ms as [|m ms IH]; [reflexivity|]. cbn. rewrite !app_length, IH, parts_length. reflexivity. }
  rewrite <- Len in K. assert (Fk : List.length (firstn k (arrives ms)) = k) by (rewrite firstn_length; lia).
  destruct (handle_many c n (firstn k (arrives ms)) s (skipn k (arrives ms)) A) as (s1 & H1 & Q1 & T1).
  - intros p Hp. assert (Hp' : In p (arrives ms)) by (rewrite <- (firstn_skipn k (arrives ms)); apply in_or_app; left; exact Hp).
    unfold arrives in Hp'. apply in_flat_map in Hp'. destruct Hp' as (m & Hm & Hp'). apply (L m); [exact Hm|]. apply parts_in. exact Hp'.
  - rewrite firstn_skipn. exact Q.
  - assert (H1' : handle_times (Some c) k s = Ret s1) by (rewrite <- H1; f_equal; symmetry; exact Fk). clear H1. rename H1' into H1. rewrite T in T1. cbn [app] in T1. exists s1, (flat_map told_of (skipn k (arrives ms))). split; [exact H1|]. split.
    + rewrite T1, <- flat_map_app, firstn_skipn, told_arrives by exact E. reflexivity.
    + rewrite T1. transitivity (List.length (firstn k (arrives ms))); [|exact Fk]. clear. induction (firstn k (arrives ms)) as [|[b m] r IH]; [reflexivity|]. cbn [flat_map told_of fst snd app filter List.length].
      destruct m; cbn [app filter List.length]; rewrite IH; reflexivity.
Qed.
Print Assumptions c81_prefix_partial.

(** C81.  A call writes only to the bytes of the part: every address outside is as it was. *)
Theorem c81_memory : forall D (c : decoder D) s s1, handle_receive_socket (Some c) s = Ret s1 ->
  exists bytes more rest, z_queue s = (bytes, more) :: rest /\ let r := snd (d_next c (z_dec s)) in
    (N.of_nat (List.length bytes) <= snd r)%N /\ forall a, (a < fst r \/ fst r + N.of_nat (List.length bytes) <= a)%N -> z_mem s1 a = z_mem s a.
Proof.
  intros D c s s1 H. unfold handle_receive_socket in H. destruct (d_next c (z_dec s)) as [d1 [at_ room]] eqn:N. destruct (z_queue s) as [|[b more] rest]; [discriminate|].
  exists b, more, rest. split; [reflexivity|]. cbn [fst snd]. destruct (N.ltb_spec room (N.of_nat (List.length b))) as [|Le]; [discriminate|]. split; [exact Le|].
  intros a Ha. assert (M : z_mem s1 = copy (z_mem s) at_ b) by (destruct more; injection H as <-; reflexivity). rewrite M. unfold copy.
  destruct (N.ltb_spec a at_); [reflexivity|]. assert (X : nth_error b (N.to_nat (a - at_)) = None) by (apply nth_error_None; lia). rewrite X. reflexivity.
Qed.
Print Assumptions c81_memory.

(** C81.  The decoder itself is told the same: its state after a call is what its own functions make of exactly that part,
    read at the address it gave, and of the end of the message if it was the last. *)
Theorem c81_decoder : forall D (c : decoder D) s s1 bytes more rest, z_queue s = (bytes, more) :: rest ->
  handle_receive_socket (Some c) s = Ret s1 ->
  exists d2, d2 = d_process c (fst (d_next c (z_dec s))) (z_mem s1) (N.of_nat (List.length bytes)) /\
    z_dec s1 = (if more then d2 else d_meta c d2 1) /\
    peek (z_mem s1) (fst (snd (d_next c (z_dec s)))) (List.length bytes) = bytes.
Proof.
  intros D c s s1 bytes more rest Q H. unfold handle_receive_socket in H. rewrite Q in H. destruct (d_next c (z_dec s)) as [d1 [at_ room]]. cbn [fst snd].
  destruct (N.ltb _ _); [discriminate|]. destruct more; injection H as <-; cbn [z_mem z_dec]; eexists; (split; [reflexivity|]); (split; [reflexivity|]); apply peek_copy.
Qed.
Print Assumptions c81_decoder.

(** ** Refuted *)
(** A decoder with one buffer of 8 bytes at address 100 that counts bytes and messages. *)
Definition counting : decoder (N * N) := Decoder _ (fun d => (d, (100, 8)%N)) (fun d _ n => (fst d + n, snd d)%N) (fun d _ => (fst d, snd d + 1)%N).
(** Whoever sends a part longer than the decoder's buffer makes the receiver write beyond it: no length is ever compared. *)
Theorem c81_long_refuted : exists bytes, allocates counting 8 /\
  handle_receive_socket (Some counting) (Zrx (0, 0)%N (fun _ => 0%N) [(bytes, false)] []) = Undef.
Proof. exists (repeat 7%N 9). split; [intros d; cbn; lia|reflexivity]. Qed.
Print Assumptions c81_long_refuted.
(** A decoder of another kind is a null pointer, used at the first message. *)
Theorem c81_kind_refuted : forall D (s : zrx D), handle_receive_socket None s = Undef.
Proof. reflexivity. Qed.
Print Assumptions c81_kind_refuted.

(** Two messages, of two parts and of one. *)
Example c81_case : let ms := [[[1; 2; 3]; [4]]; [[5; 6]]]%N in
  let s := Zrx (0, 0)%N (fun _ => 0%N) (arrives ms) [] in
  (forall m p, In m ms -> In p m -> (N.of_nat (List.length p) <= 8)%N) /\
  match handle_times (Some counting) 3 s with
  | Ret s1 => z_dec s1 = (6, 2)%N /\ z_told s1 = [Part [1; 2; 3]%N; Part [4]%N; Complete 1; Part [5; 6]%N; Complete 1]
  | _ => False end.
Proof.
  cbv zeta. split; [|vm_compute; auto].
  intros m p [<-|[<-|[]]]; [intros [<-|[<-|[]]]|intros [<-|[]]]; cbn; lia.
Qed.
