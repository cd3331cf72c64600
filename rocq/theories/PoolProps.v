(** C19 and C20: data block pools and frames. *)
From Coq Require Import Permutation.
From Verif Require Import Base PoolModel PoolSpec PoolProofs PoolThms.
Local Open Scope N_scope.

Definition no_junk (_ _ : N) : N := 0.

(** ** C19 *)

(** The counters of every pool agree with the blocks made and the blocks handed out; no block is lost or listed twice. *)
Theorem c19_conserved junk g held k : history junk g held ->
  let handed := filter (size_is g k) held in
  let made := filter (size_is g k) (all_blocks g) in
  n_total (g_pools g k) = n_free (g_pools g k) + n_used (g_pools g k) /\
  n_total (g_pools g k) = N.of_nat (List.length made) /\
  n_used (g_pools g k) = N.of_nat (List.length handed) /\
  p_mem (g_pools g k) = (k * N.of_nat (List.length made)) mod 2 ^ 64 /\
  Permutation (p_free (g_pools g k) ++ handed) made.
Proof. intros H. exact (conserved junk g held H k). Qed.

(** Taking a block always succeeds and gives a block of that size nobody else has. *)
Theorem c19_take_fresh junk g held k : history junk g held ->
  exists g' i, take k g = (g', Ret (Some i)) /\ ~ In i held /\ size_is g' k i = true.
Proof. exact (take_fresh junk g held k). Qed.

(** Two sizes; three blocks of size 10 (the pool grows from 2 to 4), one given back. *)
Definition st {A B} (x : A * B) := fst x.
Lemma take_on junk g held k i : history junk g held -> snd (take k g) = Ret (Some i) -> history junk (st (take k g)) (i :: held).
Proof. intros H E. apply (h_take junk g held k _ i H). unfold st. rewrite <- E. apply surjective_pairing. Qed.
Lemma rel_on junk g held i : history junk g held -> In i held ->
  history junk (st (release i g)) (filter (fun j => negb (j =? i)) held).
Proof. intros H E. apply (h_release junk g held i _ (snd (release i g)) H E). apply surjective_pairing. Qed.
Example c19_case :
  let g1 := st (take 10 (gl_init no_junk)) in let g2 := st (take 10 g1) in let g3 := st (take 10 g2) in
  let g4 := st (take 7 g3) in let g5 := st (release 0 g4) in
  history no_junk g5 [5; 3; 1] /\ p_free (g_pools g5 10) = [0; 2] /\ n_total (g_pools g5 10) = 4 /\ n_used (g_pools g5 10) = 2 /\
  p_free (g_pools g5 7) = [4] /\ p_mem (g_pools g5 10) = 40.
Proof.
  cbv zeta. split; [|vm_compute; repeat split].
  apply (rel_on no_junk _ [5; 3; 0; 1] 0); [|cbn; auto].
  do 4 (apply take_on; [|vm_compute; reflexivity]). apply h_init.
Qed.

(** Giving a block back twice: the used count wraps and the block is handed out to two takers. *)
Theorem c19_double_release_refuted :
  let g1 := st (take 10 (gl_init no_junk)) in let g2 := st (release 1 g1) in let g3 := st (release 1 g2) in
  let t1 := take 10 g3 in let t2 := take 10 (st t1) in
  snd (take 10 (gl_init no_junk)) = Ret (Some 1) /\ n_used (g_pools g3 10) = 2 ^ 64 - 1 /\
  n_free (g_pools g3 10) = 3 /\ n_total (g_pools g3 10) = 2 /\ snd t1 = Ret (Some 1) /\ snd t2 = Ret (Some 1).
Proof. vm_compute. repeat split. Qed.

(** ** C20 *)

(** Programs without the copy constructor, and with assignment only between frames of one size: nothing undefined
    happens, frames behave as values, every living frame has its own block and none of those is free in any pool. *)
Theorem c20_values_partial junk l : proper (fun _ => None) l -> exists m v,
  frun (mach_init junk) l = (m, true) /\ vrun (fun _ => None) l v /\ shows m v /\
  (forall f f' x x', m_frames m f = Some x -> m_frames m f' = Some x' -> d_block x = d_block x' -> f = f') /\
  (forall f x k, m_frames m f = Some x -> ~ In (d_block x) (p_free (g_pools (m_gl m) k))).
Proof.
  intros P. destruct (frames_are_values junk l P) as (m & v & held & E & V & S & G & O1 & O2).
  exists m, v. split; [exact E|]. split; [exact V|]. split; [exact S|]. split; [exact O2|].
  intros f x k X Hk. assert (Hh : In (d_block x) held) by (apply O1; eauto).
  apply (gi_held _ _ G) in Hh as (k' & Hk').
  assert (k = k') as <-.
  { destruct (proj1 (gi_in _ _ G k (d_block x))) as (b & B & <-); [apply in_or_app; auto|].
    destruct (proj1 (gi_in _ _ G k' (d_block x))) as (b' & B' & <-); [apply in_or_app; auto|]. congruence. }
  eapply nodup_app_disj; [apply (gi_nodup _ _ G k)|exact Hk|exact Hk'].

Qed.

(** With the blocks all given back, a program that destroys its frames leaves every pool with no block in use. *)
Theorem c20_no_leak_partial junk l : proper (fun _ => None) l ->
  let m := fst (frun (mach_init junk) l) in (forall f, m_frames m f = None) -> forall k, n_used (g_pools (m_gl m) k) = 0.
Proof.
  intros P. destruct (frames_are_values junk l P) as (m & v & held & E & V & S & G & O1 & O2). rewrite E. cbn. intros N k.
  rewrite (gi_used _ _ G). destruct (p_used (g_pools (m_gl m) k)) as [|i u] eqn:U; [reflexivity|exfalso].
  assert (H : In i held) by (apply (gi_held _ _ G); exists k; rewrite U; left; reflexivity).
  apply O1 in H as (f & x & F & _). rewrite N in F. discriminate.
Qed.

Definition prog : list fop :=
  [FNew 1 (fun o => o + 100) 10; FNew 2 (fun o => o) 10; FAssign 2 1; FWrite 1 3 7; FResize 2 4; FDestroy 1; FEmpty 3 10; FWrite 3 0 9].
Example c20_case : proper (fun _ => None) prog /\
  let m := fst (frun (mach_init no_junk) prog) in
  option_map (fun d => map d [0; 3]) (data_of m 2) = Some [100; 103] /\ option_map (fun d => d 0) (data_of m 3) = Some 9 /\
  data_of m 1 = None.
Proof.
  split; [|vm_compute; repeat split]. cbn. repeat split; try discriminate; [exists 10; auto|]. exists 10. repeat split; discriminate.
Qed.
Example c20_no_leak_case : proper (fun _ => None) (prog ++ [FDestroy 2; FDestroy 3]) /\
  forall f, m_frames (fst (frun (mach_init no_junk) (prog ++ [FDestroy 2; FDestroy 3]))) f = None.
Proof.
  assert (P : proper (fun _ => None) (prog ++ [FDestroy 2; FDestroy 3])).
  { cbn. repeat split; try discriminate; [exists 10; auto|]. exists 10. repeat split; discriminate. }
  split; [exact P|]. intros f. destruct (frames_are_values no_junk _ P) as (m & v & held & E & V & S & _). rewrite E. cbn [fst].
  specialize (S f). enough (Z : v f = None) by (rewrite Z in S; destruct (m_frames m f); [destruct S|reflexivity]).
  clear - V. cbn in V.
  repeat match goal with H : vrun _ (_ :: _) _ |- _ => inversion H; clear H; subst | H : vrun _ [] _ |- _ => inversion H; clear H; subst end.
  repeat match goal with H : vstep _ _ _ |- _ => inversion H; clear H; subst end;
  unfold upd; destruct (f =? 3) eqn:?, (f =? 2) eqn:?, (f =? 1) eqn:?; try reflexivity; exfalso; lia.
Qed.

(** A frame copied with the copy constructor: both frames own the same block; after both are gone, two new frames share
    it, and writing to one changes the other. *)
Theorem c20_copy_refuted :
  let l := [FNew 1 (fun o => 5) 10; FCopy 2 1 0; FDestroy 1; FDestroy 2; FNew 3 (fun _ => 1) 10; FNew 4 (fun _ => 2) 10] in
  let r := frun (mach_init no_junk) l in
  snd r = true /\ option_map (fun d => d 0) (data_of (fst r) 3) = Some 2 /\ option_map d_block (m_frames (fst r) 3) = option_map d_block (m_frames (fst r) 4).
Proof. vm_compute. repeat split. Qed.
(** While one copy lives its block is given to another frame. *)
Theorem c20_copy_alive_refuted :
  let l := [FNew 1 (fun o => 5) 10; FCopy 2 1 10; FDestroy 1; FNew 3 (fun _ => 1) 10] in
  let r := frun (mach_init no_junk) l in
  snd r = true /\ option_map (fun d => d 0) (data_of (fst r) 2) = Some 1.
Proof. vm_compute. repeat split. Qed.
(** Assigning a smaller frame keeps the old size: a write below get_data_size() is outside the block. *)
Theorem c20_assign_size_refuted :
  let l := [FNew 1 (fun _ => 5) 10; FNew 2 (fun _ => 6) 4; FAssign 1 2] in
  let r := frun (mach_init no_junk) l in
  snd r = true /\ option_map d_size (m_frames (fst r) 1) = Some 10 /\ snd (fstep (FWrite 1 9 0) (fst r)) = Undef.
Proof. vm_compute. repeat split. Qed.

Print Assumptions c19_conserved.
Print Assumptions c19_take_fresh.
Print Assumptions c19_double_release_refuted.
Print Assumptions c20_values_partial.
Print Assumptions c20_no_leak_partial.
Print Assumptions c20_copy_refuted.
Print Assumptions c20_copy_alive_refuted.
Print Assumptions c20_assign_size_refuted.
