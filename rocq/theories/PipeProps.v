(** C64: frames through connected plugins. *)
From Verif Require Import Base QueueModel PipeModel PipeSpec PipeProofs PipeOrder PipeFlow PipeEnds.

(** At any time each plugin has been called with the first of the frames that its predecessors, run one after the other, make of the input; and its state is the one after these. *)
Theorem c64_order_partial {S C} (nt : net S C) frames n z m l : tree nt -> gentle nt -> psteps nt frames n z -> expects nt frames m l ->
  prefix (log z m) l /\ st z m = after nt m (p_start nt m) (log z m).
Proof.
  intros T G P X. destruct (flow_reached nt T G frames n z P) as (_ & F). split; [|apply (f_state _ _ _ F)]. destruct (flow_prefix nt frames z F m l X) as (t & _ & c & ->). eexists. reflexivity.
Qed.
(** Plugins that nothing leads to are not called. *)
Theorem c64_only_partial {S C} (nt : net S C) frames n z m : tree nt -> gentle nt -> psteps nt frames n z -> (forall l, ~ expects nt frames m l) -> log z m = [].
Proof.
  intros T G P N. induction P as [|n z z' P IH ST]; [reflexivity|]. destruct (flow_reached nt T G frames n z P) as (TH & _). inversion ST as [z0 m0 r k E1 E2|z0 t m0 r k s1 i1 o n1 h1 l E1 E2 E3|z0 t m0 r k E1 E2|z0 t m0 k E1]; subst; try exact IH. cbn [log].
  destruct t as [h|]; [|destruct (th_main _ _ TH (Call m0 r)) as (m1 & r1 & E & _); [rewrite E1; left; reflexivity|discriminate]]. destruct (called nt T _ _ _ _ _ E1 TH) as ((d & D) & _). destruct (deep_expects nt frames _ _ _ D) as (l0 & X). rewrite on_other; [exact IH|]. intros ->. apply (N l0 X).
Qed.
(** Queues of limited length do not stop the frames: executions end, and when one has ended every plugin was called with all its frames. *)
Theorem c64_ends_partial {S C} (nt : net S C) all frames : tree nt -> gentle nt -> finite nt all -> exists B, forall n z, psteps nt frames n z -> n <= B.
Proof. intros T G F. apply (bounded nt T G frames all F). Qed.
Theorem c64_done_partial {S C} (nt : net S C) all frames n z m l : tree nt -> gentle nt -> finite nt all -> psteps nt frames n z -> (forall z', ~ pstep nt z z') -> expects nt frames m l -> log z m = l.
Proof. intros T G FIN P ST X. destruct (flow_reached nt T G frames n z P) as (TH & F). apply (stuck_done nt T frames all FIN z TH F ST m l X). Qed.
(** No two threads are in one plugin. *)
Theorem c64_exclusive_partial {S C} (nt : net S C) frames n z m t t' : tree nt -> psteps nt frames n z -> In (Ret m) (thr z t) -> In (Ret m) (thr z t') -> t = t'.
Proof.
  intros T P I I'. pose proof (threads_reached nt frames n z P) as TH.
  assert (A : forall u, In (Ret m) (thr z u) -> exists h d, u = Some h /\ deep nt m d h).
  { intros u J. destruct u as [h|]; [|destruct (th_main _ _ TH _ J) as (m1 & r1 & E & _); discriminate]. exists h. destruct (th_worker _ _ TH h) as ((d & D) & W); [intros Z; rewrite Z in J; destruct J|]. destruct W as [(r & W)|(cur & W)]; [rewrite W in J; destruct J as [J|[]]; discriminate|]. destruct (inside_deep nt _ _ _ W _ D) as (d1 & D1). destruct (ret_depth nt T _ _ _ W d1 m D1 J) as (dm & DM & _). exists dm. split; [reflexivity|exact DM]. }
  destruct (A t I) as (h & d & -> & D), (A t' I') as (h' & d' & -> & D'). destruct (deep_fun nt T _ _ _ D _ _ D') as (_ & ->). reflexivity.
Qed.

(** ** Runs *)
(** The next step of a thread *)
Definition moved {S C} (nt : net S C) (z : pipe S C) (t : option nat) : option (pipe S C) :=
  match thr z t with
  | [] => match t with
          | None => None
          | Some m => match q z m with [] => None | r :: k => Some (Pipe (st z) (log z) (on (q z) m k) (heap z) (next z) (to_thread (thr z) (Some m) [Call m r])) end
          end
  | Call m r :: k => let '(s1, i1, o) := callback nt m (st z m) (heap z r) in let '(n1, h1, l) := place r (next z) (on (heap z) r i1) o in
      Some (Pipe (on (st z) m s1) (on (log z) m (log z m ++ [heap z r])) (q z) h1 n1 (to_thread (thr z) t (flat_map (pushed nt m) l ++ Ret m :: k)))
  | Add m r :: k => if match t with None => true | Some _ => length (q z m) <? max_queue_size end then Some (Pipe (st z) (log z) (on (q z) m (q z m ++ [r])) (heap z) (next z) (to_thread (thr z) t k)) else None
  | Ret m :: k => Some (Pipe (st z) (log z) (q z) (heap z) (next z) (to_thread (thr z) t k))
  end.
Lemma moved_step {S C} (nt : net S C) z t z' : moved nt z t = Some z' -> pstep nt z z'.
Proof.
  unfold moved. destruct (thr z t) as [|a k] eqn:E.
  - destruct t as [m|]; [|discriminate]. destruct (q z m) as [|r k] eqn:Q; [discriminate|]. intros H. injection H as <-. apply s_take; assumption.
  - destruct a as [m r|m r|m].
    + destruct (callback nt m (st z m) (heap z r)) as ((s1 & i1) & o) eqn:CB. destruct (place r (next z) (on (heap z) r i1) o) as ((n1 & h1) & l) eqn:PL. intros H. injection H as <-. eapply s_call; eassumption.
    + destruct (match t with None => true | Some _ => length (q z m) <? max_queue_size end) eqn:Q; [|discriminate]. intros H. injection H as <-. apply s_add; [exact E|]. destruct t; [right; apply Nat.ltb_lt, Q|left; reflexivity].
    + intros H. injection H as <-. eapply s_ret. exact E.
Qed.
Fixpoint moves {S C} (nt : net S C) (z : pipe S C) (l : list (option nat)) : option (pipe S C) := match l with [] => Some z | t :: r => match moved nt z t with Some z1 => moves nt z1 r | None => None end end.
Lemma moves_steps {S C} (nt : net S C) frames l : forall n z z', psteps nt frames n z -> moves nt z l = Some z' -> exists n', psteps nt frames n' z'.
Proof.
  induction l as [|t l IH]; intros n z z' P H; cbn in H; [injection H as <-; exists n; exact P|]. destruct (moved nt z t) as [z1|] eqn:E; [|discriminate]. apply (IH (1 + n) z1 z'); [apply ps_step with z; [exact P|apply (moved_step nt z t z1 E)]|exact H].
Qed.
Lemma step_moved {S C} (nt : net S C) z z' : pstep nt z z' -> exists t, moved nt z t <> None.
Proof.
  intros ST. inversion ST as [z0 m r k E1 E2|z0 t m r k s1 i1 o n1 h1 l E1 E2 E3|z0 t m r k E1 E2|z0 t m k E1]; subst; unfold moved.
  - exists (Some m). rewrite E1, E2. discriminate.
  - exists t. rewrite E1, E2, E3. discriminate.
  - exists t. rewrite E1. destruct t as [h|]; [|discriminate]. destruct E2 as [E2|E2]; [discriminate|]. apply Nat.ltb_lt in E2. rewrite E2. discriminate.
  - exists t. rewrite E1. discriminate.
Qed.

(** Plugin 0 numbers the frames and changes them, with plugin 1 as a blocking callback and plugin 2 on a queue; 2 makes new frames for 3 and at the end one more *)
Definition chain : net nat nat := Net
  (fun m => match m with 0 => [1] | _ => [] end) (fun m => match m with 1 => [2] | 2 => [3] | _ => [] end) [0]
  (fun m s c => match m with 0 => (s + 1, c + 100 * s, [Push Same None]) | 2 => (s + c, c, [Push (New (Frame (2 * c))) None; Push (New (Frame 7)) (Some 3)]) | _ => (s, c, [Push Same None]) end)
  (fun m s => match m with 2 => (0, [(Frame s, None)]) | _ => (s, []) end) (fun _ => 0).
Definition input : list (item nat) := [Frame 1; Frame 2; Eoa; Frame 3].
Lemma chain_tree : tree chain.
Proof.
  unfold tree, kids. repeat split.
  - repeat constructor; intros [].
  - intros p. destruct p as [|[|[|p]]]; cbn; repeat constructor; intros [].
  - intros p m I. destruct p as [|[|[|p]]]; cbn in *; try (destruct I as [<-|[]]); try (destruct I); intros [E|[]]; discriminate.
  - intros p p' m I I'. destruct p as [|[|[|p]]], p' as [|[|[|p']]]; cbn in *; try contradiction; try reflexivity; destruct I as [<-|[]], I' as [I'|[]]; discriminate.
Qed.
Lemma chain_gentle : gentle chain.
Proof.
  unfold gentle, kids. split; [right; cbn; lia|]. intros p. right. destruct p as [|[|[|p]]]; cbn; (split; [lia|]); intros s c; cbn; lia.
Qed.
Lemma chain_finite : finite chain [0; 1; 2; 3].
Proof.
  split; [repeat constructor; cbn; lia|]. intros m. split.
  - intros I. exists 0. split; [left; reflexivity|]. assert (B1 : below chain 0 1) by (apply b_kid with 0; [apply b_self|left; reflexivity]). assert (B2 : below chain 0 2) by (apply b_kid with 1; [exact B1|left; reflexivity]). assert (B3 : below chain 0 3) by (apply b_kid with 2; [exact B2|left; reflexivity]). repeat (destruct I as [<-|I]; [try assumption; apply b_self|]). destruct I.
  - intros (r & [<-|[]] & B). induction B as [|p k B IH I]; [left; reflexivity|]. cbn in IH. unfold kids in I. repeat (destruct IH as [<-|IH]; [cbn in I; try contradiction; destruct I as [<-|[]]; cbn; tauto|]). destruct IH.
Qed.
Definition given : list (item nat) := [Frame 2; Frame 7; Frame 204; Frame 7; Frame 103; Eoa; Frame 406; Frame 7].
Example c64_case : tree chain /\ gentle chain /\ finite chain [0; 1; 2; 3] /\ expects chain input 3 given.
Proof.
  split; [apply chain_tree|]. split; [apply chain_gentle|]. split; [apply chain_finite|].
  pose proof (e_root chain input 0 (or_introl eq_refl)) as X0. pose proof (e_kid chain input 0 1 _ X0 (or_introl eq_refl)) as X1. pose proof (e_kid chain input 1 2 _ X1 (or_introl eq_refl)) as X2. exact (e_kid chain input 2 3 _ X2 (or_introl eq_refl)).
Qed.
Lemma run_with {S C} (nt : net S C) frames l (P : pipe S C -> Prop) : match moves nt (pipe_init nt frames) l with Some z => P z | None => False end -> exists n z, psteps nt frames n z /\ P z.
Proof. destruct (moves nt (pipe_init nt frames) l) as [z|] eqn:E; [|intros []]. intros H. destruct (moves_steps nt frames l 0 _ _ (ps_init nt frames) E) as (n & PS). exists n, z. split; assumption. Qed.
Definition times (n : nat) (t : option nat) : list (option nat) := repeat t n.
(** On the way, and at the end *)
Example c64_midway : exists n z, psteps chain input n z /\ log z 1 = [Frame 1; Frame 102; Eoa] /\ log z 2 = [Frame 1; Frame 102] /\ log z 3 = [Frame 2; Frame 7].
Proof. apply run_with with (l := times 4 None ++ times 18 (Some 0) ++ times 10 (Some 2) ++ times 6 (Some 3)). vm_compute. repeat split. Qed.
Definition whole : list (option nat) := times 4 None ++ times 24 (Some 0) ++ times 20 (Some 2) ++ times 24 (Some 3).
Example c64_end : exists n z, psteps chain input n z /\ log z 3 = given /\ forall m, m < 4 -> thr z (Some m) = [] /\ q z m = [].
Proof. apply run_with with (l := whole). vm_compute. split; [reflexivity|]. intros [|[|[|[|m]]]] L; split; reflexivity. Qed.

(** ** What fails *)
(** A plugin connected to two others: the order depends on the threads. *)
Definition merging : net nat nat := Net (fun _ => []) (fun m => match m with 0 => [1; 2] | 1 => [3] | 2 => [3] | _ => [] end) [0] (fun m s c => match m with 1 => (s, c, [Push (New (Frame (10 * c))) None]) | 2 => (s, c, [Push (New (Frame (20 * c))) None]) | _ => (s, c, [Push Same None]) end) (fun _ s => (s, [])) (fun _ => 0).
Definition idle {S C} (z : pipe S C) : Prop := forall m, m < 4 -> thr z (Some m) = [] /\ q z m = [].
Theorem c64_two_inputs_refuted : exists n z n' z', psteps merging [Frame 5] n z /\ psteps merging [Frame 5] n' z' /\ idle z /\ idle z' /\ thr z None = [] /\ thr z' None = [] /\ log z 3 = [Frame 50; Frame 100] /\ log z' 3 = [Frame 100; Frame 50].
Proof.
  assert (A : exists n z, psteps merging [Frame 5] n z /\ idle z /\ thr z None = [] /\ log z 3 = [Frame 50; Frame 100]).
  { apply run_with with (l := times 1 None ++ times 5 (Some 0) ++ times 4 (Some 1) ++ times 4 (Some 2) ++ times 6 (Some 3)). vm_compute. split; [|split; reflexivity]. intros [|[|[|[|m]]]] L; split; reflexivity. }
  assert (B : exists n z, psteps merging [Frame 5] n z /\ idle z /\ thr z None = [] /\ log z 3 = [Frame 100; Frame 50]).
  { apply run_with with (l := times 1 None ++ times 5 (Some 0) ++ times 4 (Some 2) ++ times 4 (Some 1) ++ times 6 (Some 3)). vm_compute. split; [|split; reflexivity]. intros [|[|[|[|m]]]] L; split; reflexivity. }
  destruct A as (n & z & A1 & A2 & A3 & A4), B as (n' & z' & B1 & B2 & B3 & B4). exists n, z, n', z'. repeat (split; [assumption|]). assumption.
Qed.
(** Two plugins connected to one, one of which changes its frames (as the offset, parameter and sum plugins do): what the other is called with depends on the threads. *)
Definition branching : net nat nat := Net (fun _ => []) (fun m => match m with 0 => [1; 2] | _ => [] end) [0] (fun m s c => match m with 2 => (s, c + 1, [Push Same None]) | _ => (s, c, [Push Same None]) end) (fun _ s => (s, [])) (fun _ => 0).
Theorem c64_shared_refuted : tree branching /\ exists n z n' z', psteps branching [Frame 5] n z /\ psteps branching [Frame 5] n' z' /\ log z 1 = [Frame 5] /\ log z' 1 = [Frame 6].
Proof.
  split.
  { unfold tree, kids. repeat split.
    - repeat constructor; intros [].
    - intros [|p]; cbn; repeat constructor; cbn; intuition discriminate.
    - intros [|p] m I; cbn in *; [destruct I as [<-|[<-|[]]]; intros [E|[]]; discriminate|destruct I].
    - intros [|p] [|p'] m I I'; cbn in *; try contradiction. reflexivity. }
  assert (A : exists n z, psteps branching [Frame 5] n z /\ log z 1 = [Frame 5]) by (apply run_with with (l := times 1 None ++ times 5 (Some 0) ++ times 2 (Some 1)); vm_compute; reflexivity).
  assert (B : exists n z, psteps branching [Frame 5] n z /\ log z 1 = [Frame 6]) by (apply run_with with (l := times 1 None ++ times 5 (Some 0) ++ times 2 (Some 2) ++ times 2 (Some 1)); vm_compute; reflexivity).
  destruct A as (n & z & A1 & A2), B as (n' & z' & B1 & B2). exists n, z, n', z'. repeat (split; [assumption|]). assumption.
Qed.
(** A blocking callback of two plugins (as the controller is of all file writers) is called by two threads at once. *)
Definition both_block : net nat nat := Net (fun m => match m with 0 => [2] | 1 => [2] | _ => [] end) (fun _ => []) [0; 1] (fun m s c => (s, c, [Push Same None])) (fun _ s => (s, [])) (fun _ => 0).
Theorem c64_at_once_refuted : exists n z, psteps both_block [Frame 5] n z /\ In (Ret 2) (thr z (Some 0)) /\ In (Ret 2) (thr z (Some 1)).
Proof. apply run_with with (l := times 2 None ++ times 3 (Some 0) ++ times 3 (Some 1)). vm_compute. split; left; reflexivity. Qed.
(** Plugins connected in a circle can stop for ever: both queues are full. *)
Definition circle : net nat nat := Net (fun _ => []) (fun m => match m with 0 => [1] | 1 => [0] | _ => [] end) [0] (fun m s c => (s, c, [Push Same None; Push Same None])) (fun _ s => (s, [])) (fun _ => 0).
Fixpoint attempt {S C} (nt : net S C) (z : pipe S C) (l : list (option nat)) : pipe S C := match l with [] => z | t :: r => match moved nt z t with Some z1 => attempt nt z1 r | None => attempt nt z r end end.
Lemma attempt_steps {S C} (nt : net S C) frames l : forall n z, psteps nt frames n z -> exists n', psteps nt frames n' (attempt nt z l).
Proof.
  induction l as [|t l IH]; intros n z P; cbn; [exists n; exact P|]. destruct (moved nt z t) as [z1|] eqn:E; [|apply (IH n z P)]. apply (IH (1 + n) z1). apply ps_step with z; [exact P|apply (moved_step nt z t z1 E)].
Qed.
Definition turns : list (option nat) := times 1 None ++ concat (repeat [Some 0; Some 1] 100).
Theorem c64_circle_refuted : exists n z, psteps circle [Frame 5] n z /\ (forall z', ~ pstep circle z z') /\ length (q z 0) = max_queue_size /\ length (q z 1) = max_queue_size.
Proof.
  destruct (attempt_steps circle [Frame 5] turns 0 _ (ps_init _ _)) as (n & P). exists n, (attempt circle (pipe_init circle [Frame 5]) turns). split; [exact P|]. split; [|split; vm_compute; reflexivity].
  intros z' ST. destruct (step_moved circle _ _ ST) as (t & M). apply M. clear. destruct t as [[|[|m]]|]; vm_compute; reflexivity.
Qed.

Print Assumptions c64_order_partial.
Print Assumptions c64_only_partial.
Print Assumptions c64_ends_partial.
Print Assumptions c64_done_partial.
Print Assumptions c64_exclusive_partial.
Print Assumptions c64_two_inputs_refuted.
Print Assumptions c64_shared_refuted.
Print Assumptions c64_at_once_refuted.
Print Assumptions c64_circle_refuted.
