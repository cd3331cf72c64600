(** C23, C43 and C51: connections, messages and timings of a plugin. *)
From Coq Require Import Sorted.
From Verif Require Import Base StrOrder PluginModel PluginSpec PluginProofs.
Local Open Scope string_scope.
Local Open Scope list_scope.

(** ** C23 *)

(** A valid frame reaches, after any history of connections, exactly the plugins connected by then, each once: first the
    blocking ones in order of name, then the queues in order of name.  No called plugin may throw. *)
Theorem c23_delivery_partial {A} (h : list (reg_op A)) (call : A -> bool) :
  (forall n cb, connected h None n = Some (true, cb) -> call cb = true) ->
  let '(ds, ok) := push call true (reg_run h no_conns) in
  ok = true /\ NoDup (map d_name ds) /\
  (forall d, In d ds <-> connected h None (d_name d) = Some (d_entry d)) /\
  exists d1 d2, ds = d1 ++ d2 /\ Forall (fun d => fst (d_entry d) = true) d1 /\ Forall (fun d => fst (d_entry d) = false) d2 /\
    StronglySorted (fun x y => String.ltb x y = true) (map d_name d1) /\ StronglySorted (fun x y => String.ltb x y = true) (map d_name d2).
Proof.
  intros H. assert (C0 : conns_ok (@no_conns A)) by (constructor; cbn; auto).
  destruct (reg_run_ok h no_conns C0) as (C & En). change (entry no_conns) with (fun n : string => @None (bool * A)) in En. cbn in En.
  rewrite push_result, call_all_all; cbn [snd fst].
  - split; [reflexivity|]. split; [apply all_nodup, C|]. split; [intros d; rewrite <- En; apply all_in, C|].
    exists (map (fun e => Called (fst e) (snd e)) (c_block (reg_run h no_conns))), (map (fun e => Queued (fst e) (snd e)) (c_queue (reg_run h no_conns))).
    split; [reflexivity|]. rewrite !Forall_map, !map_map. cbn. split; [apply Forall_forall; auto|]. split; [apply Forall_forall; auto|].
    split; apply sm_sorted; apply C.
  - intros n cb Hn. apply (H n cb). rewrite <- En. unfold entry. rewrite (sm_in_get _ _ _ (co_b _ C) Hn). reflexivity.
Qed.

(** Whatever the called plugins do, the deliveries made are the first ones of the list above. *)
Theorem c23_prefix {A} (h : list (reg_op A)) (call : A -> bool) : exists rest,
  fst (push (fun _ => true) true (reg_run h no_conns)) = fst (push call true (reg_run h no_conns)) ++ rest /\
  (snd (push call true (reg_run h no_conns)) = true -> rest = []).
Proof.
  rewrite !push_result. rewrite call_all_all by auto. cbn [snd fst].
  destruct (call_all_prefix call (c_block (reg_run h no_conns))) as (r & E & F). unfold all_deliveries. rewrite E.
  destruct (snd (call_all call (c_block (reg_run h no_conns)))); cbn [fst snd].
  - exists []. rewrite (F eq_refl), !app_nil_r. auto.
  - eexists. rewrite <- app_assoc. split; [reflexivity|discriminate].
Qed.

(** An invalid frame reaches nobody, and the caller is told. *)
Theorem c23_invalid {A} (h : list (reg_op A)) call n :
  push call false (reg_run h no_conns) = ([], false) /\ push_to call false n (reg_run h no_conns) = ([], false).
Proof. split; reflexivity. Qed.

(** A frame pushed to one name reaches that plugin only, if it is connected. *)
Theorem c23_named {A} (h : list (reg_op A)) call n : let ds := fst (push_to call true n (reg_run h no_conns)) in
  match connected h None n with
  | Some (true, cb) => ds = [Called n cb]
  | Some (false, cb) => ds = [Queued n cb]
  | None => ds = []
  end.
Proof.
  assert (C0 : conns_ok (@no_conns A)) by (constructor; cbn; auto).
  destruct (reg_run_ok h no_conns C0) as (C & En). specialize (En n). change (entry no_conns n) with (@None (bool * A)) in En. rewrite <- En.
  pose proof (co_one _ C n) as O. unfold push_to, entry. destruct (sm_get (c_block _) n) as [cb|], (sm_get (c_queue _) n) as [cb'|]; try reflexivity.
  - destruct O; discriminate.
  - destruct (call cb); reflexivity.
Qed.

Definition hist : list (reg_op nat) :=
  [Register "b" 1 false; Register "a" 2 true; Register "b" 3 true; Register "c" 4 false; Remove "c"; Register "c" 5 true; Register "z" 6 false].
Example c23_case : fst (push (fun _ => true) true (reg_run hist no_conns)) = [Called "a" 2; Called "c" 5; Queued "b" 1; Queued "z" 6] /\
  connected hist None "b" = Some (false, 1) /\ (forall n cb, connected hist None n = Some (true, cb) -> (fun _ : nat => true) cb = true).
Proof. split; [vm_compute; reflexivity|]. split; [vm_compute; reflexivity|]. reflexivity. Qed.

(** If a called plugin throws, later ones and all queues miss the frame. *)
Theorem c23_throw_refuted : push (fun cb : nat => negb (Nat.eqb cb 2)) true (reg_run hist no_conns) = ([Called "a" 2], false).
Proof. vm_compute. reflexivity. Qed.

(** ** C43 *)
Theorem c43_messages h : firsts (errs (since_clear h)) (e_list (msg_run h)) /\ firsts (warns (since_clear h)) (w_list (msg_run h)) /\
  NoDup (e_list (msg_run h)) /\ NoDup (w_list (msg_run h)).
Proof. destruct (msgs_ok h) as (A & B). split; [exact A|]. split; [exact B|]. split; eapply firsts_nodup; eassumption. Qed.
Example c43_case : let h := [Err "x"; Clear; Err "a"; Warn "w"; Err "b"; Err "a"; Warn "w"] in
  e_list (msg_run h) = ["a"; "b"] /\ w_list (msg_run h) = ["w"] /\ since_clear h = [Err "a"; Warn "w"; Err "b"; Err "a"; Warn "w"].
Proof. vm_compute. repeat split. Qed.

(** ** C51 *)

(** After a reset: the maximum is that of the durations seen, the last is the last, the mean lies between the smallest and
    the largest (all as 32 bit values). *)
Theorem c51_timings_partial d l t lo hi : (forall x, In x (l ++ [t]) -> (x < 2 ^ 32 /\ lo <= x <= hi)%N) ->
  let r := dur_run (l ++ [t]) (dur_reset d) in
  d_last r = t /\ d_max r = fold_left N.max (l ++ [t]) 0%N /\ (lo <= d_mean r <= hi)%N.
Proof.
  intros H r. assert (M : forall x, In x (l ++ [t]) -> (x mod 2 ^ 32 = x)%N) by (intros x Hx; apply N.mod_small; apply H, Hx).
  split; [|split].
  - unfold r, dur_run. rewrite fold_left_app. cbn. apply M, in_or_app. right. left. reflexivity.
  - unfold r. rewrite dur_max. cbn [d_max dur_reset]. f_equal. rewrite <- (map_id (l ++ [t])) at 2. apply map_ext_in. exact M.
  - unfold r, dur_run. rewrite fold_left_app. fold (dur_run l (dur_reset d)). cbn [fold_left dur_update d_mean].
    rewrite (M t) by (apply in_or_app; right; left; reflexivity). assert (It : In t (l ++ [t])) by (apply in_or_app; right; left; reflexivity). pose proof (H t It) as Ht.
    destruct (dur_mean lo hi l) with (d := dur_reset d) as [Z|Z].
    + intros x Hx. rewrite M by (apply in_or_app; auto). apply H, in_or_app. auto.
    + left. reflexivity.
    + rewrite Z. cbn. lia.
    + destruct (N.eqb_spec (d_mean (dur_run l (dur_reset d))) 0); [lia|]. split; [apply N.div_le_lower_bound; lia|apply N.div_le_upper_bound; lia].
Qed.
Example c51_case : let r := dur_run [10; 30; 7]%N (dur_reset (Dur 5 5 5)) in r = Dur 7 30 13.
Proof. vm_compute. reflexivity. Qed.
(** Before a reset the members hold whatever was in memory: the reported maximum need not be a duration that occurred. *)
Theorem c51_uninitialised_refuted : exists d, d_max (dur_run [3]%N d) = 77%N /\ d_mean (dur_run [3]%N d) = 40%N.
Proof. exists (Dur 0 77 77). vm_compute. split; reflexivity. Qed.
(** A call that takes longer than 2^32 us (71 minutes) is recorded modulo 2^32. *)
Theorem c51_wrap_refuted : forall d, d_max (dur_run [2 ^ 32 + 1]%N (dur_reset d)) = 1%N.
Proof. reflexivity. Qed.

Print Assumptions c23_delivery_partial.
Print Assumptions c23_prefix.
Print Assumptions c23_invalid.
Print Assumptions c23_named.
Print Assumptions c23_throw_refuted.
Print Assumptions c43_messages.
Print Assumptions c51_timings_partial.
Print Assumptions c51_uninitialised_refuted.
Print Assumptions c51_wrap_refuted.
