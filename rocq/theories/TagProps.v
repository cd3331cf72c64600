(** Property C79: the attributes image_nr_low and image_nr_high of the datasets. *)
From Coq Require Import String.
From Verif Require Import Base PlaceModel PlaceSpec NameModel AcqModel AcqSpec TagSpec TagProofs AcqProps.
Local Open Scope list_scope.
Local Open Scope N_scope.

(** C79.  Whatever frames arrive and whatever HDF5 refuses: every dataset of every file that an acquisition created
    belongs to a definition, has the attributes exactly if that definition asks for them, and their values depend on
    the number of the file alone. *)
Theorem c79_attributes : forall g nm dir master total towrite defs dk i0 s0 o t s rs p df x dd,
  start_acquisition i0 (St (configured g nm dir master total towrite defs) dk []) = (s0, o) -> run s0 t = (s, rs) ->
  In p (created (s_log s)) -> s_disk s p = Some df -> df x = Some dd ->
  exists n d, p = path_of dir nm n /\ In d defs /\ d_name d = x /\
    (d_lowhigh d = false -> dd_lowhigh dd = None) /\
    (d_lowhigh d = true -> g_fpb g <= 1 -> dd_lowhigh dd = Some (-1, -1)%Z) /\
    (d_lowhigh d = true -> 1 < g_fpb g -> exists low high, dd_lowhigh dd = Some (low, high) /\
       low = (Z.of_N n * Z.of_N (g_fpb g) + 1)%Z /\
       (g_bpf g = 0 -> high = Z.of_N total) /\
       (g_bpf g <> 0 -> high = Z.min ((Z.of_N n + 1) * Z.of_N (g_fpb g)) (Z.of_N total))).
Proof.
  intros g nm dir master total towrite defs dk i0 s0 o t s rs p df x dd H0 Hr Hp Hd Hx.
  destruct (tags_run _ _ _ _ _ _ _ _ _ _ _ _ _ _ _ _ _ _ H0 Hr Hp Hd Hx) as (n & d & E1 & E2 & E3 & E4).
  exists n, d. unfold tag_of, low_high in E4. cbn [a_geom configured a_total] in E4. repeat split; auto.
  - intros A. rewrite A in E4. exact E4.
  - intros A B. rewrite A in E4. cbn [andb] in E4. destruct (N.ltb_spec 1 (g_fpb g)); [lia|]. exact E4.
  - intros A B. rewrite A in E4. cbn [andb] in E4. destruct (N.ltb_spec 1 (g_fpb g)); [|lia].
    destruct (N.eqb_spec (g_bpf g) 0) as [Hb|Hb]; cbn [orb] in E4.
    + do 2 eexists. split; [exact E4|]. split; [reflexivity|]. split; [reflexivity|]. congruence.
    + destruct (Z.ltb_spec (Z.of_N total) (Z.of_N n * Z.of_N (g_fpb g) + 1 + Z.of_N (g_fpb g) - 1)).
      * do 2 eexists. split; [exact E4|]. split; [reflexivity|]. split; [congruence|]. intros _. nia.
      * do 2 eexists. split; [exact E4|]. split; [reflexivity|]. split; [congruence|]. intros _. nia.
Qed.
Print Assumptions c79_attributes.

(** C79, partial.  With one block per file and more than one frame per block, a dataset that asks for the attributes
    names exactly the images its file holds.  Missing: more blocks per file, single frames, no limit of frames (all
    refuted below). *)
Theorem c79_frames_partial : forall g nm dir master total towrite defs dk i0 s0 o t s rs p df x dd,
  1 <= g_procs g -> 1 < g_fpb g -> g_bpf g = 1 ->
  start_acquisition i0 (St (configured g nm dir master total towrite defs) dk []) = (s0, o) -> run s0 t = (s, rs) ->
  In p (created (s_log s)) -> s_disk s p = Some df -> df x = Some dd ->
  (forall d, In d defs -> d_name d = x -> d_lowhigh d = true) ->
  exists n tag, p = path_of dir nm n /\ dd_lowhigh dd = Some tag /\ tells_frames (g_procs g) (g_fpb g) 1 total n tag.
Proof.
  intros g nm dir master total towrite defs dk i0 s0 o t s rs p df x dd HP HF HB H0 Hr Hp Hd Hx Ha.
  destruct (c79_attributes _ _ _ _ _ _ _ _ _ _ _ _ _ _ _ _ _ _ H0 Hr Hp Hd Hx) as (n & d & E1 & E2 & E3 & _ & _ & E4).
  destruct (E4 (Ha d E2 E3) HF) as (low & high & E5 & E6 & _ & E7). exists n, (low, high). repeat split; auto.
  - rewrite in_file_one in H1 by lia. cbn [fst]. nia.
  - rewrite in_file_one in H1 by lia. cbn [snd]. rewrite E7 by lia. nia.
  - cbn [fst snd]. intros H1. rewrite in_file_one by lia. rewrite E7 in H1 by lia. nia.
Qed.
Print Assumptions c79_frames_partial.

(** One process, two frames per block. *)
Definition tg (fpb bpf : N) : geom := Geom 1 0 fpb bpf.
Definition tdefs : list dsdef := [DsDef "data" T16 CNone [3; 4] [1; 3; 4] true; DsDef "par" T64 CNone [] [1] false].
Definition trun (fpb bpf total : N) (l : list N) : st * list (option status) :=
  run (fst (start_acquisition io_ok (St (configured (tg fpb bpf) xnm "dir" "data" total total tdefs) xdisk []))) (map (fun n => (io_ok, xframe n n)) l).
Definition tag (s : st) (p x : string) : option (Z * Z) :=
  match s_disk s p with Some df => match df x with Some dd => dd_lowhigh dd | None => None end | None => None end.

(** Five frames, two per file: the third file holds image 5 only. *)
Example c79_case : let s := fst (trun 2 1 5 [0; 1; 2; 3; 4]) in
  created (s_log s) = ["dir/run_000000.h5"; "dir/run_000001.h5"; "dir/run_000002.h5"]%string /\
  map (fun p => tag s p "data") (created (s_log s)) = [Some (1, 2); Some (3, 4); Some (5, 5)]%Z /\
  map (fun p => tag s p "par") (created (s_log s)) = [None; None; None].
Proof. vm_compute. repeat split. Qed.
Example c79_case_frames : tells_frames 1 2 1 5 2 (5, 5)%Z /\ ~ tells_frames 1 2 1 5 2 (4, 5)%Z.
Proof.
  split.
  - intros off Ho. rewrite in_file_one by lia. cbn [fst snd]. lia.
  - intros H. specialize (H 3 eq_refl). rewrite in_file_one in H by lia. cbn [fst snd] in H. lia.
Qed.

(** Refuted for more than one block per file: with two blocks of two frames per file, the second file holds images 5
    to 8 (frame 6 is stored in it) but its attributes say 3 to 4. *)
Theorem c79_blocks_refuted : let s := fst (trun 2 2 8 [0; 1; 2; 3; 4; 5; 6; 7]) in
  snd (trun 2 2 8 [0; 1; 2; 3; 4; 5; 6; 7]) = [Some SOk; Some SOk; Some SOk; Some SOk; Some SOk; Some SOk; Some SOk; Some SComplete] /\
  read (s_disk s) "dir/run_000001.h5" "data" 2 = Some [6] /\ in_file 1 2 2 1 6 /\
  tag s "dir/run_000001.h5" "data" = Some (3, 4)%Z /\ ~ tells_frames 1 2 2 8 1 (3, 4)%Z.
Proof.
  cbv zeta. split; [vm_compute; reflexivity|]. split; [vm_compute; reflexivity|].
  assert (I6 : in_file 1 2 2 1 6) by (exists 2; split; [lia|reflexivity]).
  split; [exact I6|]. split; [vm_compute; reflexivity|].
  intros H. apply (H 6 eq_refl) in I6. cbn [fst snd] in I6. lia.
Qed.
Print Assumptions c79_blocks_refuted.

(** Refuted for one frame per block: the attributes are there and say -1. *)
Theorem c79_single_refuted : let s := fst (trun 1 1 2 [0; 1]) in
  read (s_disk s) "dir/run_000001.h5" "data" 0 = Some [1] /\ in_file 1 1 1 1 1 /\
  tag s "dir/run_000001.h5" "data" = Some (-1, -1)%Z /\ ~ tells_frames 1 1 1 2 1 (-1, -1)%Z.
Proof.
  cbv zeta. split; [vm_compute; reflexivity|].
  assert (I1 : in_file 1 1 1 1 1) by (exists 0; split; [lia|reflexivity]).
  split; [exact I1|]. split; [vm_compute; reflexivity|]. intros H. apply (H 1 eq_refl) in I1. cbn [fst snd] in I1. lia.
Qed.
Print Assumptions c79_single_refuted.

(** Refuted without a limit of frames (total 0): frames are stored and the highest image is said to be 0. *)
Theorem c79_unlimited_refuted : let s := fst (trun 2 1 0 [0; 1; 2]) in
  read (s_disk s) "dir/run_000001.h5" "data" 0 = Some [2] /\ tag s "dir/run_000001.h5" "data" = Some (3, 0)%Z.
Proof. vm_compute. repeat split. Qed.
Print Assumptions c79_unlimited_refuted.
