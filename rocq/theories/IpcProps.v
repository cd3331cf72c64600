(** C76: endpoints, messages and identities of channels. *)
From Coq Require Import String Ascii Lia.
From Verif Require Import Base IpcModel IpcSpec IpcProofs.
Local Open Scope list_scope.
Local Open Scope Z_scope.

(** A channel listens exactly where it was bound and not unbound since, and says so.  Missing: endpoints bound twice, long addresses. *)
Theorem c76_listens_partial h : once h ->
  (forall a, In a (c_listens (acts h channel_init)) <-> exists ep, holds h ep a) /\ (forall ep, has_bound_endpoint ep (acts h channel_init) = true <-> exists a, holds h ep a).
Proof.
  intros O. destruct (ends_acts h O) as [M L _]. split; [exact L|]. intros ep. unfold has_bound_endpoint. destruct (look ep _) as [a|] eqn:E; [split; [intros _; exists a; apply M, E|reflexivity]|]. split; [discriminate|]. intros (a & K). apply M in K. congruence.
Qed.
(** unbind ends the listening at that endpoint's address and no other. *)
Theorem c76_unbind_partial h ep c' r : once h -> unbind ep (acts h channel_init) = (c', r) ->
  r = Done /\ has_bound_endpoint ep c' = false /\ forall a, In a (c_listens c') <-> In a (c_listens (acts h channel_init)) /\ ~ holds h ep a.
Proof.
  intros O E. pose proof (ends_acts h O) as EH. assert (O' : once (h ++ [Unbind ep])). { intros x e a y EQ. destruct (snoc_split _ _ _ _ _ EQ) as [(_ & _ & D)|(y' & _ & D)]; [discriminate|exact (O _ _ _ _ D)]. }
  pose proof (ends_step h _ (Unbind ep) EH O') as EN. assert (C : do_act (acts h channel_init) (Unbind ep) = c') by (unfold do_act; rewrite E; reflexivity). rewrite C in EN. assert (HS : forall e a, holds (h ++ [Unbind ep]) e a <-> e <> ep /\ holds h e a).
  { intros e a. rewrite holds_snoc. split; [intros [X|(N & K)]; [discriminate|split; [intros ->; destruct (N eq_refl)|exact K]]|]. intros (N & K). right. split; [intros X; injection X as ->; destruct (N eq_refl)|exact K]. }
  split; [|split].
  - unfold unbind in E. destruct (look ep _) as [a|] eqn:LK; [|congruence]. destruct (existsb _ _) eqn:X; [congruence|]. exfalso. assert (Y : existsb (String.eqb a) (c_listens (acts h channel_init)) = true) by (apply existsb_exists; exists a; split; [apply (e_lis _ _ EH); exists ep; apply (e_map _ _ EH), LK|apply String.eqb_refl]). congruence.
  - unfold has_bound_endpoint. destruct (look ep (c_map c')) as [a|] eqn:LK; [|reflexivity]. apply (e_map _ _ EN), HS in LK. destruct LK as (N & _). destruct (N eq_refl).
  - intros a. rewrite (e_lis _ _ EN), (e_lis _ _ EH). split.
    + intros (e & K). apply HS in K. destruct K as (N & K). split; [exists e; exact K|]. intros K'. exact (N (e_inj _ _ EH _ _ _ K K')).
    + intros ((e & K) & N). exists e. apply HS. split; [intros ->; exact (N K)|exact K].
Qed.
(** A wildcard bound twice: the first address is forgotten, no unbind ends it any more. *)
Theorem c76_twice_refuted : exists h ep a, holds h ep a /\ (forall x y, h <> x ++ Unbind ep :: y) /\ forall eps, In a (c_listens (acts (h ++ map Unbind eps) channel_init)) /\ (In ep eps -> has_bound_endpoint ep (acts (h ++ map Unbind eps) channel_init) = false).
Proof.
  exists [Bind "tcp://*:*" (Some "tcp://0.0.0.0:5001"%string); Bind "tcp://*:*" (Some "tcp://0.0.0.0:5002"%string)], "tcp://*:*"%string, "tcp://0.0.0.0:5001"%string. split; [exists [], [Bind "tcp://*:*" (Some "tcp://0.0.0.0:5002"%string)]; split; [reflexivity|intros [X|[]]; discriminate]|]. split; [intros [|? [|? [|? ?]]] y X; discriminate|].
  intros eps. unfold acts. rewrite fold_left_app. set (c := fold_left do_act _ channel_init). assert (G : forall c0, c0 = c \/ c0 = Channel [] ["tcp://0.0.0.0:5001"%string] -> let c1 := fold_left do_act (map Unbind eps) c0 in (c1 = c \/ c1 = Channel [] ["tcp://0.0.0.0:5001"%string]) /\ (In "tcp://*:*"%string eps \/ c0 <> c -> c1 <> c)).
  { induction eps as [|e eps IH]; intros c0 C; cbn [map fold_left]; [split; [exact C|]; intros [[]|N]; exact N|]. destruct C as [-> | ->].
    - destruct (String.eqb_spec e "tcp://*:*"%string) as [->|N].
      + assert (D : do_act c (Unbind "tcp://*:*") = Channel [] ["tcp://0.0.0.0:5001"%string]) by reflexivity. rewrite D. destruct (IH (Channel [] ["tcp://0.0.0.0:5001"%string]) (or_intror eq_refl)) as (A & B). split; [exact A|]. intros _. apply B. right. discriminate.
      + assert (D : do_act c (Unbind e) = c). { unfold do_act, unbind. assert (K : look e (c_map c) = None) by (unfold c; cbn; destruct (String.eqb_spec e "tcp://*:*"%string); [contradiction|reflexivity]). rewrite K. reflexivity. }
        rewrite D. destruct (IH c (or_introl eq_refl)) as (A & B). split; [exact A|]. intros [[X|X]|X]; [destruct (N X)|apply B; left; exact X|destruct (X eq_refl)].
    - change (do_act (Channel [] ["tcp://0.0.0.0:5001"%string]) (Unbind e)) with (Channel [] ["tcp://0.0.0.0:5001"%string]). destruct (IH _ (or_intror eq_refl)) as (A & B). split; [exact A|]. intros _. apply B. right. discriminate. }
  destruct (G c (or_introl eq_refl)) as ([A|A] & B); rewrite A in *; (split; [left; reflexivity|]); intros I; [destruct (B (or_introl I) eq_refl)|reflexivity].
Qed.
(** An address of 256 characters or more: bind throws, and the channel listens there all the same, without knowing. *)
Theorem c76_long_refuted ep a c : (256 <= String.length a)%nat -> exists c', bind ep (Some a) c = (c', Thrown) /\ In a (c_listens c') /\ forall ep', has_bound_endpoint ep' c' = has_bound_endpoint ep' c.
Proof. intros L. unfold bind. assert (Z : (256 <? Z.of_nat (String.length a) + 1) = true) by (apply Z.ltb_lt; lia). rewrite Z. eexists. split; [reflexivity|]. split; [apply in_or_app; right; left; reflexivity|reflexivity]. Qed.

(** Requests of one part: the ROUTER receives from each DEALER what it sent, in order, under its identity, each message once; nothing else;
    all of it when nothing is under way any more.  Its recv does not wait half way.  Missing: messages of several parts. *)
Theorem c76_requests_partial ids h n o : steps ids h net_init = Some (n, o) -> single_requests h ->
  (forall i m, In (RGot i m) o -> In i ids) /\ (forall d, exists rest, sent d h = received d o ++ rest) /\
  ((forall d, step ids (Up d) n = None) -> step ids RRecv n = None -> forall d, sent d h = received d o) /\
  (forall i m more lost, step ids (RSend i m more lost) n <> None).
Proof.
  intros E S. destruct (req_steps ids h [] [] _ _ _ _ _ (req_init ids) S E) as (q & ms & [C H I J G O Z T]). cbn [app] in *. destruct n as [c ou i hf r w]. cbn [n_cur n_out n_in n_half n_rcur n_way] in *. subst hf. split; [exact G|]. split; [intros d; eexists; apply T|]. split.
  - intros U R d. rewrite T. subst i. destruct q as [|x q]; [|cbn in R; discriminate]. specialize (U d). cbn [step] in U. rewrite O in U. destruct (ms d); [cbn; rewrite app_nil_r; reflexivity|discriminate].
  - intros p m more lost. cbn [step]. destruct more; [discriminate|]. destruct (r ++ [p; m]) as [|? ?] eqn:X; [apply app_eq_nil in X; destruct X; discriminate|discriminate].
Qed.
(** Replies of one part: each DEALER receives what was sent to its identity and not lost, in order, each once; nothing else. *)
Theorem c76_replies_partial ids h n o : steps ids h net_init = Some (n, o) -> single_replies h ->
  (forall d, In d ids -> exists rest, addressed d h = got d o ++ rest) /\ (forall d, In d ids -> step ids (DRecv d) n = None -> addressed d h = got d o) /\ (forall d, ~ In d ids -> got d o = []).
Proof.
  intros E S. destruct (rep_steps ids h [] [] _ _ _ _ (rep_init ids) S E) as (ms & [C W G Z]). cbn [app] in *. split; [intros d K; eexists; apply G, K|]. split; [|intros d K; exact (proj1 (Z d K))].
  intros d K D. rewrite (G d K). destruct n as [c ou i hf r w]. cbn [n_way] in W. destruct hf; cbn [step] in D; rewrite W in D; (destruct (ms d); [apply app_nil_r|discriminate]).
Qed.
(** A request of two parts: recv gives the first; the next one takes the second part for an identity and waits for a payload, so the thread
    that serves the channel stands still, without reply, until some other message arrives. *)
Theorem c76_waits_refuted : exists n o, steps ["a"%string] [DSend "a" "one" true; DSend "a" "two" false; Up "a"; RRecv; RRecv] net_init = Some (n, o) /\ o = [RGot "a" "one"] /\
  forall l n' o', steps ["a"%string] l n = Some (n', o') -> (forall d, ~ In (Up d) l) -> ~ In RRecv l /\ forall i m more lost, ~ In (RSend i m more lost) l.
Proof.
  eexists _, _. split; [reflexivity|]. split; [reflexivity|]. match goal with |- forall l n' o', steps _ l ?n = _ -> _ => assert (H : n_half n = Some "two"%string /\ n_in n = []) by (split; reflexivity); generalize dependent n end.
  intros n H l. revert n H. induction l as [|e l IH]; intros n (H & I) n' o' E U; [split; [intros []|intros ? ? ? ? []]|]. cbn [steps] in E. destruct (step _ e n) as [(n1, o1)|] eqn:E1; [|discriminate]. destruct (steps _ l n1) as [(n2, o2)|] eqn:E2; [|discriminate]. destruct n as [c ou i hf r w]. cbn [n_half n_in] in H, I. subst hf i.
  assert (N : n_half n1 = Some "two"%string /\ n_in n1 = [] /\ e <> RRecv /\ forall p m more lost, e <> RSend p m more lost).
  { destruct e as [d m more|d| |p m more lost|d]; cbn [step] in E1.
    - destruct (known _ d); cbn [negb] in E1; [|discriminate]. destruct more; injection E1 as <- <-; (split; [reflexivity|]; split; [reflexivity|]; split; [discriminate|intros; discriminate]).
    - destruct (U d (or_introl eq_refl)).
    - discriminate.
    - discriminate.
    - destruct (w d) as [|(m, b) t]; [discriminate|]. injection E1 as <- <-. split; [reflexivity|]; split; [reflexivity|]; split; [discriminate|intros; discriminate]. }
  destruct N as (N1 & N2 & N3 & N4). destruct (IH n1 (conj N1 N2) _ _ E2 (fun d X => U d (or_intror X))) as (A & B). split; [intros [X|X]; [exact (N3 X)|exact (A X)]|]. intros p m more lost [X|X]; [exact (N4 _ _ _ _ X)|exact (B _ _ _ _ X)].
Qed.
(** From then on identities and messages are exchanged: the next request of another DEALER comes as a message "b" of identity "two". *)
Theorem c76_shift_refuted : exists n o, steps ["a"; "b"]%string [DSend "a" "one" true; DSend "a" "two" false; Up "a"; RRecv; RRecv; DSend "b" "request" false; Up "b"; RRecv; DSend "b" "next" false; Up "b"; RRecv] net_init = Some (n, o) /\
  o = [RGot "a" "one"; RGot "two" "b"; RGot "request" "b"] /\ received "b" o = [].
Proof. eexists _, _. split; [reflexivity|]. split; reflexivity. Qed.
(** A reply of two parts: the identity comes again between them. *)
Theorem c76_parts_refuted : exists n o, steps ["a"%string] [RSend "a" "one" true false; RSend "a" "two" false false; DRecv "a"; DRecv "a"; DRecv "a"] net_init = Some (n, o) /\ got "a" o = ["one"; "a"; "two"]%string /\ addressed "a" [RSend "a" "one" true false; RSend "a" "two" false false] = ["one"; "two"]%string.
Proof. eexists _, _. split; [reflexivity|]. split; reflexivity. Qed.

(** The model's float is the nearest. *)
Theorem c76_float r : 0 <= r -> representable (as_float r) /\ forall x, representable x -> Z.abs (as_float r - r) <= Z.abs (x - r).
Proof. exact (float_nearest r). Qed.
(** The identity and its final NUL fit in their array exactly if neither result of random() is one of the 64 largest. *)
Theorem c76_identity r1 r2 : 0 <= r1 < 2^31 -> 0 <= r2 < 2^31 -> (Z.of_nat (List.length (identity r1 r2)) + 1 <= identity_size <-> r1 < 2^31 - 64 /\ r2 < 2^31 - 64).
Proof.
  intros R1 R2. destruct (within_range r1 R1) as (A1 & B1), (within_range r2 R2) as (A2 & B2). destruct (hex4_facts _ B1) as (C1 & D1 & _), (hex4_facts _ B2) as (C2 & D2 & _). unfold identity, identity_size. rewrite !app_length. cbn [List.length].
  rewrite <- A1, <- A2, <- D1, <- D2. lia.
Qed.
Theorem c76_identity_refuted : exists r1 r2, 0 <= r1 < 2^31 /\ 0 <= r2 < 2^31 /\ identity_size < Z.of_nat (List.length (identity r1 r2)) + 1.
Proof. exists (2^31 - 1), 0. split; [lia|]. split; [lia|]. vm_compute. reflexivity. Qed.
(** Then it is four hexadecimal digits, a dash, four hexadecimal digits; and draws that differ by 32896 or more give different identities. *)
Theorem c76_identity_form r1 r2 : 0 <= r1 < 2^31 - 64 -> 0 <= r2 < 2^31 - 64 -> exists a b, identity r1 r2 = a ++ ["-"%char] ++ b /\ List.length a = 4%nat /\ List.length b = 4%nat /\ Forall is_hex a /\ Forall is_hex b.
Proof.
  intros R1 R2. destruct (within_range r1 ltac:(lia)) as (A1 & B1), (within_range r2 ltac:(lia)) as (A2 & B2). destruct (hex4_facts _ B1) as (C1 & D1 & _ & F1), (hex4_facts _ B2) as (C2 & D2 & _ & F2). eexists _, _. split; [reflexivity|].
  assert (L1 := proj2 D1 (proj2 A1 (proj2 R1))). assert (L2 := proj2 D2 (proj2 A2 (proj2 R2))). split; [lia|]. split; [lia|]. split; assumption.
Qed.
Theorem c76_identity_differ r1 r2 s1 s2 : 0 <= r1 < 2^31 - 64 -> 0 <= r2 < 2^31 - 64 -> 0 <= s1 < 2^31 - 64 -> 0 <= s2 < 2^31 - 64 -> 32896 <= Z.abs (r1 - s1) \/ 32896 <= Z.abs (r2 - s2) -> identity r1 r2 <> identity s1 s2.
Proof.
  intros R1 R2 S1 S2 D E. unfold identity in E.
  assert (F : forall r, 0 <= r < 2^31 - 64 -> List.length (hex4 (within 65536 r)) = 4%nat /\ reads 0 (hex4 (within 65536 r)) = within 65536 r).
  { intros r R. destruct (within_range r ltac:(lia)) as (A & B). destruct (hex4_facts _ B) as (C & X & Y & _). assert (L := proj2 X (proj2 A (proj2 R))). split; [lia|exact Y]. }
  destruct (F r1 R1) as (L1 & V1), (F r2 R2) as (L2 & V2), (F s1 S1) as (L3 & V3), (F s2 S2) as (L4 & V4).
  assert (SP : forall (a b x y : list ascii), List.length a = List.length b -> a ++ x = b ++ y -> a = b /\ x = y) by (intros a; induction a as [|c a IH]; intros [|c' b] x y L Q; try discriminate; [auto|]; cbn in L, Q; injection L as L; injection Q as -> Q; destruct (IH _ _ _ L Q) as (-> & ->); auto).
  apply SP in E; [|congruence]. destruct E as (E1 & E). cbn [app] in E. injection E as E2. assert (W1 : within 65536 r1 = within 65536 s1) by congruence. assert (W2 : within 65536 r2 = within 65536 s2) by congruence.
  pose proof (within_near r1 s1 ltac:(lia) ltac:(lia) W1). pose proof (within_near r2 s2 ltac:(lia) ltac:(lia) W2). lia.
Qed.

(** Cases *)
Example c76_listens_case : once [Bind "tcp://*:*" (Some "tcp://0.0.0.0:5001"%string); Unbind "tcp://*:*"; Bind "tcp://*:*" (Some "tcp://0.0.0.0:5002"%string)] /\ c_listens (acts [Bind "tcp://*:*" (Some "tcp://0.0.0.0:5001"%string); Unbind "tcp://*:*"; Bind "tcp://*:*" (Some "tcp://0.0.0.0:5002"%string)] channel_init) = ["tcp://0.0.0.0:5002"%string].
Proof.
  split; [|reflexivity]. intros x ep a y E. assert (N0 : forall e b, ~ holds [] e b) by (intros e b ([|? ?] & z & X & _); discriminate).
  destruct x as [|x1 [|x2 [|x3 x]]]; cbn [app] in E.
  - injection E as <- <- _. split; [vm_compute; lia|]. split; intros; apply N0.
  - discriminate.
  - injection E as <- <- <- <- _. assert (N2 : forall e b, ~ holds [Bind "tcp://*:*" (Some "tcp://0.0.0.0:5001"%string); Unbind "tcp://*:*"] e b).
    { intros e b K. apply (holds_snoc [Bind "tcp://*:*" (Some "tcp://0.0.0.0:5001"%string)]) in K. destruct K as [K|(N & K)]; [discriminate|]. apply (holds_snoc []) in K. destruct K as [K|(_ & K)]; [injection K as <- <-; destruct (N eq_refl)|exact (N0 _ _ K)]. }
    split; [vm_compute; lia|]. split; intros; apply N2.
  - injection E as _ _ _ E. destruct x; discriminate.
Qed.
Example c76_requests_case : exists n o, steps ["a"; "b"]%string [DSend "a" "x" false; DSend "b" "y" false; DSend "a" "z" false; Up "b"; Up "a"; RRecv; RSend "b" "ok" false false; RRecv; DRecv "b"] net_init = Some (n, o) /\ o = [RGot "b" "y"; RGot "a" "x"; DGot "b" "ok"] /\ sent "a" [DSend "a" "x" false; DSend "b" "y" false; DSend "a" "z" false] = ["x"; "z"]%string.
Proof. eexists _, _. split; [reflexivity|]. split; reflexivity. Qed.
Example c76_identity_case : identity 1804289383 846930886 = ["d"; "7"; "1"; "6"; "-"; "6"; "4"; "f"; "6"]%char. Proof. reflexivity. Qed.

Print Assumptions c76_listens_partial.
Print Assumptions c76_unbind_partial.
Print Assumptions c76_twice_refuted.
Print Assumptions c76_long_refuted.
Print Assumptions c76_requests_partial.
Print Assumptions c76_replies_partial.
Print Assumptions c76_waits_refuted.
Print Assumptions c76_shift_refuted.
Print Assumptions c76_parts_refuted.
Print Assumptions c76_float.
Print Assumptions c76_identity.
Print Assumptions c76_identity_refuted.
Print Assumptions c76_identity_form.
Print Assumptions c76_identity_differ.
