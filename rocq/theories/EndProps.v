(** C66: frames from the simulator, through receivers and process plugins, into the files. *)
From Coq Require Import Permutation String.
From Verif Require Import Base PlaceModel PlaceSpec NameModel AcqModel AcqSpec FwModel FwSpec FwThms.
From Verif Require EndFiles EndNode.
From Verif Require Import DecModel DecSpec DecProofs DecInv DecProps LoopModel LoopSpec LoopProofs LoopImage LoopProps SimModel SimProps LiveModel ReplayModel ReplaySpec ReplayProofs ReplayProps EndModel EndSpec.
Local Open Scope Z_scope.
Local Open Scope list_scope.

(** ** The file writer *)
(** All frames the process expects, each once, in an order in which no frame comes after one that belongs two files later: no error,
    the frames are passed on in order, and each is read back at its place; writing stops exactly when all expected frames came. *)
Theorem c66_files_partial : forall w i0 u,
  let g := w_geom w in let p := w_next w in
  w_writing w = false -> prepared p ->
  setup_ok g (next_naming w) (w_defs w) (last_row (g_fpb g) (g_bpf g) (p_towrite p)) ->
  (forall d, In d (w_defs w) -> hd_error (d_chunks d) = Some 1%N) ->
  (0 < p_total p <= 2 ^ 31)%N -> calc_num_frames g (p_total p) = Ret (p_towrite p) -> (0 < p_towrite p)%N ->
  hdf5_works i0 u ->
  let fs := map snd (map snd u) in
  Forall (wanted g (w_defs w) (w_master w) (p_total p)) fs ->
  Forall (fun f => f_acq f = ""%string \/ f_acq f = p_id p) fs ->
  nearly_ordered g fs -> NoDup (map adjusted fs) ->
  exists w' rs o, fw_run w (OExecute i0 CmdStart :: offers u) = (w', rs) /\ Forall (eq (Ret tt)) rs /\
    w_out w' = w_out w ++ o /\ FwSpec.pushes o = fs /\ no_errors o /\
    (w_writing w' = false <-> forall off, expects g (p_total p) off -> exists f, In f fs /\ adjusted f = Z.of_N off) /\
    forall f, In f fs ->
      read (w_disk w') (path_of (p_path p) (next_naming w) (file_of g f * g_procs g + g_rank g)) (f_dataset f) (place_of g f)
      = Some (f_data f).
Proof. intros w i0 u g p H1 H2 H3 H4 H5 H6 H7 (H8 & H9). exact (EndFiles.kept w i0 u H1 H2 H3 H4 H5 H6 H7 H8 H9). Qed.

(** ** Images of the process plugin *)
Lemma image_wanted P r n w h fw x : file_writer P r n w h fw -> (0 < P)%nat -> 0 <= n < 2 ^ 31 -> 0 <= fst x < n -> Nat.modulo (Z.to_nat (fst x)) P = r ->
  wanted (w_geom fw) (w_defs fw) (w_master fw) (p_total (w_next fw)) (image_frame w h x).
Proof.
  intros W HP N K M. constructor; unfold image_frame; cbn; try lia.
  - unfold number_small. cbn. lia.
  - exists (Z.to_N (fst x)). unfold adjusted. cbn. rewrite Z.add_0_r. split; [reflexivity|]. split; [rewrite (wr_total _ _ _ _ _ _ W); lia|].
    rewrite (wr_block _ _ _ _ _ _ W), (wr_procs _ _ _ _ _ _ W), (wr_rank _ _ _ _ _ _ W). unfold block_of. rewrite N.div_1_r. subst r.
    rewrite <- (N2Nat.id (Z.to_N (fst x))). rewrite Z_N_nat. rewrite Nat2N.inj_mod. reflexivity.
  - destruct (wr_def _ _ _ _ _ _ W) as (ch & lh & H). exists (DsDef "dummy" T16 CNone [Z.to_N h; Z.to_N w] ch lh). split; [exact H|]. cbn. repeat split; try discriminate.
  - unfold is_counted. cbn. destruct (wr_master _ _ _ _ _ _ W) as [-> | ->]; reflexivity.
  - reflexivity.
Qed.
Lemma image_ends P r n w h fw i0 u l : file_writer P r n w h fw -> (0 < P)%nat -> 0 < n < 2 ^ 31 ->
  (forall x, In x l -> 0 <= fst x < n /\ Nat.modulo (Z.to_nat (fst x)) P = r) -> NoDup (map fst l) ->
  hdf5_works i0 u -> map snd (map snd u) = map (image_frame w h) l -> nearly_ordered (w_geom fw) (map (image_frame w h) l) ->
  exists fw' rs o, fw_run fw (OExecute i0 CmdStart :: offers u) = (fw', rs) /\ Forall (eq (Ret tt)) rs /\
    w_out fw' = w_out fw ++ o /\ FwSpec.pushes o = map (image_frame w h) l /\ no_errors o /\
    (w_writing fw' = false <-> forall k, 0 <= k < n -> Nat.modulo (Z.to_nat k) P = r -> In k (map fst l)) /\
    forall x, In x l -> read (w_disk fw') (file_with P r fw (fst x)) "dummy" (slot_for P fw (fst x)) = Some (map Z.to_N (snd x)).
Proof.
  intros W HP N IN ND (H0 & H1) EU NO.
  pose proof (EndFiles.kept fw i0 u (wr_idle _ _ _ _ _ _ W) (wr_prepared _ _ _ _ _ _ W)) as K. cbv zeta in K. rewrite EU in K.
  rewrite (wr_block _ _ _ _ _ _ W) in K. specialize (K (wr_setup _ _ _ _ _ _ W) (wr_chunks _ _ _ _ _ _ W)).
  specialize (K ltac:(rewrite (wr_total _ _ _ _ _ _ W); lia) (wr_towrite _ _ _ _ _ _ W) (wr_some _ _ _ _ _ _ W) H0 H1).
  assert (F1 : Forall (wanted (w_geom fw) (w_defs fw) (w_master fw) (p_total (w_next fw))) (map (image_frame w h) l)).
  { apply Forall_forall. intros f Hf. apply in_map_iff in Hf as (x & <- & Hx). destruct (IN x Hx). apply (image_wanted P r n); auto; lia. }
  assert (F2 : Forall (fun f => f_acq f = ""%string \/ f_acq f = p_id (w_next fw)) (map (image_frame w h) l)).
  { apply Forall_forall. intros f Hf. apply in_map_iff in Hf as (x & <- & _). left. reflexivity. }
  assert (AD : forall x, In x l -> adjusted (image_frame w h x) = fst x) by (intros x Hx; destruct (IN x Hx); unfold adjusted; cbn; lia).
  assert (F3 : NoDup (map adjusted (map (image_frame w h) l))).
  { rewrite map_map. rewrite (map_ext_in _ _ _ AD). exact ND. }
  destruct (K F1 F2 NO F3) as (fw' & rs & o & E & R & O & PU & NE & ST & RD). exists fw', rs, o.
  split; [exact E|]. split; [exact R|]. split; [exact O|]. split; [exact PU|]. split; [exact NE|]. split.
  - rewrite ST. split.
    + intros A k Hk Mk. destruct (A (Z.to_N k)) as (f & Hf & Af).
      * split; [rewrite (wr_total _ _ _ _ _ _ W); lia|]. rewrite (wr_block _ _ _ _ _ _ W), (wr_procs _ _ _ _ _ _ W), (wr_rank _ _ _ _ _ _ W). unfold block_of.
        rewrite N.div_1_r. subst r. rewrite <- (N2Nat.id (Z.to_N k)). rewrite Z_N_nat, Nat2N.inj_mod. reflexivity.
      * apply in_map_iff in Hf as (x & <- & Hx). rewrite (AD x Hx) in Af. rewrite Z2N.id in Af by lia. subst k. apply in_map, Hx.
    + intros A off (E1 & E2). rewrite (wr_total _ _ _ _ _ _ W) in E1. rewrite (wr_block _ _ _ _ _ _ W), (wr_procs _ _ _ _ _ _ W), (wr_rank _ _ _ _ _ _ W) in E2. unfold block_of in E2. rewrite N.div_1_r in E2.
      assert (I : In (Z.of_N off) (map fst l)).
      { apply A; [lia|]. rewrite <- (N2Nat.id off) in E2. rewrite <- Nat2N.inj_mod in E2. apply Nat2N.inj in E2. rewrite <- E2. f_equal. lia. }
      apply in_map_iff in I as (x & EX & Hx). exists (image_frame w h x). split; [apply in_map, Hx|]. rewrite (AD x Hx). exact EX.
  - intros x Hx. specialize (RD _ (in_map (image_frame w h) _ _ Hx)). unfold file_of, place_of in RD. rewrite (AD x Hx) in RD.
    rewrite (wr_block _ _ _ _ _ _ W), (wr_procs _ _ _ _ _ _ W), (wr_rank _ _ _ _ _ _ W) in RD. exact RD.
Qed.

(** ** The whole way *)
(** [n] images of [w] by [h] pixels are made by the simulator and sent in packets of [plen] bytes to as many ports as there are receivers.
    All datagrams sent to port [r] reach receiver [r], in any order; it gives no frame up and drops none; its frame processor handles
    each frame once, in an order close to that of the numbers.  Then the file writer of process [r] ends by itself without error, and each
    image with a number that is [r] modulo the number of processes is found at its place with the simulated pixels. *)
Theorem c66_end_to_end_partial : forall w h plen n o result fs t sd r c mem ops s fw i0 u,
  in_i32 (w * h) = true -> 0 < plen < 2 * (w * h) -> 2 <= n < 2 ^ 31 ->
  create_frames w h plen n = Ret fs -> replay_frames o result fs = Ret (t, sd) ->
  o_frames o = Some n -> o_frac o = None -> o_list o = None -> NoDup (o_ports o) -> (r < List.length (o_ports o))%nat ->
  cfg_ok c -> psize c = plen -> ppf c = npackets (2 * (w * h)) plen ->
  yrun c mem ops s -> (starts ops <= 1)%nat -> writes ops = 0%nat -> sized w h ops -> all_processed s ->
  no_late (y_trace s) -> none_late (y_trace s) -> no_reset (y_trace s) -> Z.of_nat (List.length (y_trace s)) < 2 ^ 32 -> f_dropped (y_dec s) = 0 ->
  Permutation (arrived (y_trace s)) (to_port (nth r (o_ports o) 0) (s_sent sd)) ->
  let P := List.length (o_ports o) in
  file_writer P r n w h fw -> hdf5_works i0 u -> map snd (map snd u) = map (image_frame w h) (y_out s) ->
  nearly_ordered (w_geom fw) (map (image_frame w h) (y_out s)) ->
  exists fw' rs out, fw_run fw (OExecute i0 CmdStart :: offers u) = (fw', rs) /\ Forall (eq (Ret tt)) rs /\
    w_out fw' = w_out fw ++ out /\ no_errors out /\ w_writing fw' = false /\
    forall k, 0 <= k < n -> Nat.modulo (Z.to_nat k) P = r ->
      read (w_disk fw') (file_with P r fw k) "dummy" (slot_for P fw k) = Some (simulated w h).
Proof.
  intros w h plen n o result fs t sd r c mem ops s fw i0 u I32 PL N C RP OF OD OL NDP Hr CK PS PF RUN ST NW SZ AP NL TO NR LEN FD AR P FW HW EU NO.
  assert (NB : npackets (2 * (w * h)) plen <= 2 ^ 30) by (unfold cfg_ok, max_packets in CK; lia).
  rewrite (EndNode.port_packets w h plen n o result fs t sd r I32 PL NB (proj1 N) C RP OF OD OL NDP Hr) in AR. fold P in AR.
  assert (HP : (0 < P)%nat) by (unfold P; lia).
  pose proof (EndNode.numbers_nodup w h plen n P r c mem ops s CK I32 PL PS PF (proj2 N) HP RUN ST NL NW NR LEN FD AR TO AP) as ND.
  pose proof (EndNode.numbers_in w h plen n P r c mem ops s CK I32 PL PS PF (proj2 N) HP RUN ST NL NW NR LEN FD AR TO AP) as IN.
  destruct (image_ends P r n w h fw i0 u (y_out s) FW HP ltac:(lia) ltac:(intros x Hx; apply IN, in_map, Hx) ND HW EU NO) as (fw' & rs & out & E & R & O & _ & NE & S & RD).
  exists fw', rs, out. split; [exact E|]. split; [exact R|]. split; [exact O|]. split; [exact NE|]. split; [apply S; intros k Hk Mk; apply IN; split; assumption|].
  intros k Hk Mk. assert (X : In k (map fst (y_out s))) by (apply IN; split; assumption). apply in_map_iff in X as ((k', im) & <- & X). rewrite (RD _ X). cbn [fst snd]. f_equal.
  rewrite (EndNode.out_image w h plen n P r c mem ops s CK I32 PL PS PF (proj2 N) HP RUN ST NL NW NR LEN FD AR TO SZ AP k' im X). unfold simulated. rewrite map_map. reflexivity.
Qed.

(** Packets are lost, or come so late that frames are given up: what was handed over and processed once is found in the files, with
    the regions of the lost packets zeroed; the acquisition ends by itself exactly when no frame of the process is missing. *)
Theorem c66_lossy_partial : forall w h plen n lost P r c mem ops s fw i0 u,
  in_i32 (w * h) = true -> 0 < plen < 2 * (w * h) -> 0 < n < 2 ^ 31 -> (0 < P)%nat ->
  cfg_ok c -> psize c = plen -> ppf c = npackets (2 * (w * h)) plen ->
  yrun c mem ops s -> (starts ops <= 1)%nat -> writes ops = 0%nat -> sized w h ops ->
  no_late (y_trace s) -> no_reset (y_trace s) -> Z.of_nat (List.length (y_trace s)) < 2 ^ 32 -> f_dropped (y_dec s) = 0 ->
  network w h plen n (fun _ _ => false) lost (y_trace s) -> d_map (y_dec s) = [] ->
  (forall k out, In (k, out) (y_out s) -> 0 <= k < n /\ Nat.modulo (Z.to_nat k) P = r /\ List.length (handed k (y_trace s)) = 1%nat) -> NoDup (map fst (y_out s)) ->
  file_writer P r n w h fw -> hdf5_works i0 u -> map snd (map snd u) = map (image_frame w h) (y_out s) ->
  nearly_ordered (w_geom fw) (map (image_frame w h) (y_out s)) ->
  exists fw' rs out, fw_run fw (OExecute i0 CmdStart :: offers u) = (fw', rs) /\ Forall (eq (Ret tt)) rs /\
    w_out fw' = w_out fw ++ out /\ no_errors out /\
    (w_writing fw' = false <-> forall k, 0 <= k < n -> Nat.modulo (Z.to_nat k) P = r -> In k (map fst (y_out s))) /\
    forall k, In k (map fst (y_out s)) ->
      read (w_disk fw') (file_with P r fw k) "dummy" (slot_for P fw k)
      = Some (map Z.to_N (picture pixel_byte (2 * (w * h)) plen (map fst (sent k (y_trace s))))).
Proof.
  intros w h plen n lost P r c mem ops s fw i0 u I32 PL N HP CK PS PF RUN ST NW SZ NL NR LEN FD NET NM AP ND FW HW EU NO.
  destruct (image_ends P r n w h fw i0 u (y_out s) FW HP N ltac:(intros [k im] Hx; destruct (AP k im Hx) as (? & ? & _); split; assumption) ND HW EU NO) as (fw' & rs & out & E & R & O & _ & NE & S & RD).
  exists fw', rs, out. split; [exact E|]. split; [exact R|]. split; [exact O|]. split; [exact NE|]. split; [exact S|].
  intros k X. apply in_map_iff in X as ((k', im) & <- & X). rewrite (RD _ X). cbn [fst snd]. f_equal. f_equal. destruct (AP k' im X) as (_ & _ & HL).
  pose proof (EndNode.out_size w h c mem ops s RUN SZ k' im X) as LO.
  apply (c30_end_to_end_partial c mem ops s w h plen n (fun _ _ => false) lost k' im CK I32 PL PS PF (proj2 N) RUN NET ST NL NW NR LEN FD X); [rewrite LO; lia|exact HL|].
  rewrite NM. reflexivity.
Qed.

(** ** Examples *)
(** Four images of 3 by 1 pixels, two packets each, to two receivers; one frame per file.  Receiver 0 gets frame 2 before frame 0. *)
Definition xio : io := IO (fun _ => true) (fun _ _ => true) true true.
Definition ecfg (P r n B : N) : config :=
  Config (Some (PCfg (Val P) (Val r) (Val 1%N) (Val B))) (Some (FCfg (Val "/d"%string) (Val "run"%string) Absent Absent Absent Absent))
    (DsObj [("dummy"%string, DCfg (Val T16) (Val [1; 3]%N) Absent (Val CNone) Absent)]) false (Val n) Absent (Val "a"%string) Absent.
Definition efw (P r n B : N) : fw := fst (fw_run (fw_init true (fun _ => None)) [OConfigure (fun _ => true) (ecfg P r n B)]).
Definition eopts : opts := setup (Some "9000,9001"%string) (Some 4) None None None.
Definition eops : list yop :=
  [YStart; YMsg; YConfig; YPacket 2 (1 + 2 ^ 30) [2; 0] 0; YPacket 0 (2 ^ 31) [0; 0; 1; 0] 0; YPacket 2 (2 ^ 31) [0; 0; 1; 0] 0; YPacket 0 (1 + 2 ^ 30) [2; 0] 0;
   YReceive 1; YReceive 1; YProcess 0 3 1; YProcess 1 3 1].
Definition esys : sys := yafter c2 eops.
Definition eu (l : list (Z * list Z)) : list ((io * io) * (io * frame)) := map (fun x => ((xio, xio), (xio, image_frame 3 1 x))) l.
Lemma eu_frames l : map snd (map snd (eu l)) = map (image_frame 3 1) l.
Proof. unfold eu. rewrite !map_map. reflexivity. Qed.
Lemma eu_works l : hdf5_works xio (eu l).
Proof. split; [repeat split|]. apply Forall_forall. intros c H. apply in_map_iff in H as (x & <- & _). repeat split. Qed.

Example c66_simulated : exists fs t sd, create_frames 3 1 4 4 = Ret fs /\ replay_frames eopts (fun _ => 10) fs = Ret (t, sd) /\
  o_frames eopts = Some 4 /\ o_frac eopts = None /\ o_list eopts = None /\ NoDup (o_ports eopts) /\ o_ports eopts = [9000; 9001] /\
  Permutation (arrived (y_trace esys)) (to_port 9000 (s_sent sd)).
Proof.
  eexists _, _, _. split; [vm_compute; reflexivity|]. split; [vm_compute; reflexivity|]. split; [reflexivity|]. split; [reflexivity|]. split; [reflexivity|].
  split; [vm_compute; repeat constructor; cbn; intuition discriminate|]. split; [vm_compute; reflexivity|].
  assert (E : arrived (y_trace esys) = [Pkt 2 (1 + 2 ^ 30) [2; 0]; Pkt 0 (2 ^ 31) [0; 0; 1; 0]; Pkt 2 (2 ^ 31) [0; 0; 1; 0]; Pkt 0 (1 + 2 ^ 30) [2; 0]]) by (vm_compute; reflexivity).
  rewrite E. match goal with |- Permutation _ ?x => replace x with [Pkt 0 (2 ^ 31) [0; 0; 1; 0]; Pkt 0 (1 + 2 ^ 30) [2; 0]; Pkt 2 (2 ^ 31) [0; 0; 1; 0]; Pkt 2 (1 + 2 ^ 30) [2; 0]] by (vm_compute; reflexivity) end.
  generalize (Pkt 2 (1 + 2 ^ 30) [2; 0]) (Pkt 0 (2 ^ 31) [0; 0; 1; 0]) (Pkt 2 (2 ^ 31) [0; 0; 1; 0]) (Pkt 0 (1 + 2 ^ 30) [2; 0]). intros a b d e.
  transitivity [b; a; d; e]; [apply perm_swap|apply perm_skip]. apply Permutation_rev.
Qed.
Example c66_received : cfg_ok c2 /\ psize c2 = 4 /\ ppf c2 = npackets (2 * (3 * 1)) 4 /\ yrun c2 (fun _ => DecProps.blank) eops esys /\ (starts eops <= 1)%nat /\ writes eops = 0%nat /\ sized 3 1 eops /\ all_processed esys /\
  no_late (y_trace esys) /\ none_late (y_trace esys) /\ no_reset (y_trace esys) /\ Z.of_nat (List.length (y_trace esys)) < 2 ^ 32 /\ f_dropped (y_dec esys) = 0 /\
  y_out esys = [(2, [0; 0; 1; 0; 2; 0]); (0, [0; 0; 1; 0; 2; 0])].
Proof.
  split; [cbv; intuition discriminate|]. split; [reflexivity|]. split; [reflexivity|]. split; [apply yafter_run; vm_compute; exact Logic.I|]. split; [cbn; lia|]. split; [reflexivity|].
  split; [intros j w' h' H; cbn in H; repeat (destruct H as [H|H]; [first [discriminate|injection H; auto]|]); destruct H|].
  split; [assert (E : map fst (y_out esys) = map r_frame (flat_map snd (y_trace esys))) by (vm_compute; reflexivity); unfold all_processed; rewrite E; apply Permutation_refl|].
  split; [apply (late_check_ok _ None []); vm_compute; reflexivity|].
  split; [intros x H; assert (E : forallb (fun x => match h_state (b_hdr (r_buf x)) with RTimedout => false | _ => true end) (flat_map snd (y_trace esys)) = true) by (vm_compute; reflexivity);
          rewrite forallb_forall in E; specialize (E x H); intros Q; rewrite Q in E; discriminate|].
  split; [intros r H; assert (X : existsb (fun e => match fst e with ResetStats => true | _ => false end) (y_trace esys) = true) by (apply existsb_exists; eexists; split; [exact H|reflexivity]); vm_compute in X; discriminate|].
  split; [vm_compute; reflexivity|]. split; vm_compute; reflexivity.
Qed.
Lemma efw_ok P r n : (P, r, n) = (2, 0, 4)%nat \/ (P, r, n) = (1, 0, 4)%nat \/ (P, r, n) = (1, 0, 2)%nat -> file_writer P r (Z.of_nat n) 3 1 (efw (N.of_nat P) (N.of_nat r) (N.of_nat n) 1).
Proof.
  intros H. assert (E : (efw (N.of_nat P) (N.of_nat r) (N.of_nat n) 1) = FW false (Geom (N.of_nat P) (N.of_nat r) 1 1) "" "h5" true 0 "" [DsDef "dummy" T16 CNone [1; 3]%N [1; 1; 3]%N false] no_acq
    (Prep "/d" "run" "a" (N.of_nat n) (N.of_nat (n / P))) true 0 (fun _ => None) [] []).
  { destruct H as [H|[H|H]]; injection H as -> -> ->; vm_compute; reflexivity. }
  rewrite E. constructor; cbn [w_writing w_geom w_next w_defs w_master p_total p_towrite g_procs g_rank g_fpb g_bpf].
  - reflexivity.
  - left. discriminate.
  - reflexivity.
  - reflexivity.
  - reflexivity.
  - destruct H as [H|[H|H]]; injection H as -> -> ->; reflexivity.
  - destruct H as [H|[H|H]]; injection H as -> -> ->; reflexivity.
  - destruct H as [H|[H|H]]; injection H as -> -> ->; reflexivity.
  - constructor; cbn [g_procs g_rank g_fpb g_bpf].
    + destruct H as [H|[H|H]]; injection H as -> -> ->; cbn; lia.
    + destruct H as [H|[H|H]]; injection H as -> -> ->; cbn; lia.
    + lia.
    + repeat constructor. cbn. tauto.
    + intros d m [<-|[]] I. cbn in I. lia.
    + intros d m [<-|[]] I. cbn in I. lia.
    + intros d [<-|[]]. reflexivity.
    + intros d c0 [<-|[]] I. cbn in I. injection I as <-. destruct H as [H|[H|H]]; injection H as -> -> ->; vm_compute; reflexivity.
    + reflexivity.
    + left. discriminate.
    + destruct H as [H|[H|H]]; injection H as -> -> ->; vm_compute; reflexivity.
  - intros d [<-|[]]. reflexivity.
  - exists [1%N; 1%N; 3%N], false. left. reflexivity.
  - left. reflexivity.
Qed.
Example c66_writer : file_writer 2 0 4 3 1 (efw 2 0 4 1) /\ nearly_ordered (w_geom (efw 2 0 4 1)) (map (image_frame 3 1) (y_out esys)).
Proof.
  split.
  - apply (efw_ok 2 0 4). left. reflexivity.
  - assert (E : y_out esys = [(2, [0; 0; 1; 0; 2; 0]); (0, [0; 0; 1; 0; 2; 0])]) by (vm_compute; reflexivity). rewrite E.
    intros a f b f' H IN. destruct a as [|a1 [|a2 [|a3 a]]]; cbn in H; [destruct IN| | |].
    + injection H as <- <- _. destruct IN as [<-|[]]. vm_compute. discriminate.
    + injection H as _ _ H. discriminate.
    + injection H as _ _ H. discriminate.
Qed.
Example c66_case : let r := fw_run (efw 2 0 4 1) (OExecute xio CmdStart :: offers (eu (y_out esys))) in
  w_writing (fst r) = false /\ AcqSpec.created (w_log (fst r)) = ["/d/run_000000.h5"; "/d/run_000002.h5"]%string /\
  map (fun k => read (w_disk (fst r)) (file_with 2 0 (efw 2 0 4 1) k) "dummy" (slot_for 2 (efw 2 0 4 1) k)) [0; 2] = [Some (simulated 3 1); Some (simulated 3 1)] /\
  file_with 2 0 (efw 2 0 4 1) 2 = "/d/run_000002.h5"%string /\ simulated 3 1 = [0; 0; 1; 0; 2; 0]%N.
Proof. vm_compute. repeat split. Qed.

(** The case of c30_end_to_end_case: one packet of frame 0 is lost, the frame is given up. *)
Example c66_lossy_case : let s := yafter c2 demo in sized 3 1 demo /\
  (forall k out, In (k, out) (y_out s) -> 0 <= k < 2 /\ Nat.modulo (Z.to_nat k) 1 = 0%nat /\ List.length (handed k (y_trace s)) = 1%nat) /\ NoDup (map fst (y_out s)) /\
  file_writer 1 0 2 3 1 (efw 1 0 2 1) /\ nearly_ordered (w_geom (efw 1 0 2 1)) (map (image_frame 3 1) (y_out s)) /\
  let r := fw_run (efw 1 0 2 1) (OExecute xio CmdStart :: offers (eu (y_out s))) in
  w_writing (fst r) = false /\ read (w_disk (fst r)) (file_with 1 0 (efw 1 0 2 1) 0) "dummy" (slot_for 1 (efw 1 0 2 1) 0) = Some [0; 0; 1; 0; 0; 0]%N.
Proof.
  assert (E : y_out (yafter c2 demo) = [(1, [0; 0; 1; 0; 2; 0]); (0, [0; 0; 1; 0; 0; 0])]) by (vm_compute; reflexivity).
  assert (HL : List.length (handed 1 (y_trace (yafter c2 demo))) = 1%nat /\ List.length (handed 0 (y_trace (yafter c2 demo))) = 1%nat) by (split; vm_compute; reflexivity).
  cbv zeta. rewrite E. clear E. revert HL. generalize (y_trace (yafter c2 demo)). intros tr (HL1 & HL2).
  split; [intros j w' h' H; cbn in H; repeat (destruct H as [H|H]; [first [discriminate|injection H; auto]|]); destruct H|].
  split; [intros k out [[= <- <-]|[[= <- <-]|[]]]; (split; [lia|]); (split; [reflexivity|]); assumption|].
  split; [repeat constructor; cbn; lia|]. split; [apply (efw_ok 1 0 2); right; right; reflexivity|]. split; [|split; vm_compute; reflexivity].
  intros a f b f' H IN. destruct a as [|a1 [|a2 [|a3 a]]]; cbn in H; [destruct IN| | |].
  + injection H as <- <- _. destruct IN as [<-|[]]. vm_compute. discriminate.
  + injection H as _ _ H. discriminate.
  + injection H as _ _ H. discriminate.
Qed.

(** ** What fails *)
(** One process, one frame per file, all frames received and processed, but frame 0 after frame 2: file 0 is closed already, the frame
    is refused and lost, and the acquisition does not end. *)
Theorem c66_order_refuted : let l := [(2, [5; 0]); (0, [7; 0]); (1, [6; 0]); (3, [4; 0])] in
  let r := fw_run (efw 1 0 4 1) (OExecute xio CmdStart :: offers (eu l)) in
  file_writer 1 0 4 3 1 (efw 1 0 4 1) /\ hdf5_works xio (eu l) /\ Permutation (map fst l) [0; 1; 2; 3] /\
  Forall (eq (Ret tt)) (snd r) /\ w_writing (fst r) = true /\ In (Err ErrInvalid) (w_out (fst r)) /\
  map (fun k => read (w_disk (fst r)) (file_with 1 0 (efw 1 0 4 1) k) "dummy" (slot_for 1 (efw 1 0 4 1) k)) [0; 1; 2; 3] = [None; Some [6; 0]; Some [5; 0]; Some [4; 0]]%N.
Proof.
  split; [apply (efw_ok 1 0 4); right; left; reflexivity|].
  split; [apply eu_works|]. split; [cbn; apply (Permutation_cons_app [0; 1] [3]); reflexivity|].
  split; [vm_compute; repeat constructor|]. split; [vm_compute; reflexivity|]. split; [vm_compute; tauto|]. vm_compute. reflexivity.
Qed.

(** Two data sets, one of them the master: the acquisition ends with the last frame of the master, and a frame of the other data set that
    comes after it is neither written nor passed on, without an error. *)
Definition mcfg : config :=
  Config None (Some (FCfg (Val "/d"%string) (Val "run"%string) Absent Absent Absent Absent))
    (DsObj [("dummy"%string, DCfg (Val T16) (Val [1; 3]%N) Absent (Val CNone) Absent); ("sum"%string, DCfg (Val T16) (Val [1; 3]%N) Absent (Val CNone) Absent)])
    false (Val 1%N) (Val "dummy"%string) (Val "a"%string) Absent.
Definition other (x : Z * list Z) : frame := let f := image_frame 3 1 x in Frame (f_number f) 0 "sum" "" T16 CNone (f_dims f) [] 1 (f_data f).
Theorem c66_master_refuted :
  let w := fst (fw_run (fw_init true (fun _ => None)) [OConfigure (fun _ => true) mcfg]) in
  let r := fw_run w [OExecute xio CmdStart; OFrame xio xio xio (image_frame 3 1 (0, [5; 0])); OFrame xio xio xio (other (0, [7; 0]))] in
  w_master w = "dummy"%string /\ p_total (w_next w) = 1%N /\ Forall (eq (Ret tt)) (snd r) /\ no_errors (w_out (fst r)) /\
  FwSpec.pushes (w_out (fst r)) = [image_frame 3 1 (0, [5; 0])] /\
  read (w_disk (fst r)) "/d/run_000000.h5" "dummy" 0 = Some [5; 0]%N /\ read (w_disk (fst r)) "/d/run_000000.h5" "sum" 0 = None.
Proof.
  split; [vm_compute; reflexivity|]. split; [vm_compute; reflexivity|]. split; [vm_compute; repeat constructor|]. split; [vm_compute; repeat constructor|].
  split; [vm_compute; reflexivity|]. split; vm_compute; reflexivity.
Qed.

Print Assumptions c66_files_partial.
Print Assumptions c66_end_to_end_partial.
Print Assumptions c66_lossy_partial.
Print Assumptions c66_order_refuted.
Print Assumptions c66_master_refuted.

(** The simulated image: pixel [p] is a number of two bytes, low byte first, with the value [p] modulo 65536. *)
Theorem c66_pixels : forall w h p, 0 <= w * h -> 0 <= p < w * h -> List.length (simulated w h) = Z.to_nat (2 * (w * h)) /\
  exists lo hi, nth_error (simulated w h) (Z.to_nat (2 * p)) = Some lo /\ nth_error (simulated w h) (Z.to_nat (2 * p + 1)) = Some hi /\ (lo < 256)%N /\ (hi < 256)%N /\ Z.of_N (lo + 256 * hi) = p mod 65536.
Proof.
  intros w h p WH P. unfold simulated. set (n := w * h) in *. clearbody n. split; [rewrite map_length, seq_length; reflexivity|].
  assert (N : forall q, 0 <= q < 2 * n -> nth_error (map (fun o => Z.to_N (pixel_byte (Z.of_nat o))) (seq 0 (Z.to_nat (2 * n)))) (Z.to_nat q) = Some (Z.to_N (pixel_byte q))).
  { intros q Q. rewrite (map_nth_error _ _ _ (d := Z.to_nat q)); [rewrite Z2Nat.id by lia; reflexivity|]. rewrite nth_error_nth' with (d := 0%nat) by (rewrite seq_length; lia). rewrite seq_nth by lia. reflexivity. }
  exists (Z.to_N (pixel_byte (2 * p))), (Z.to_N (pixel_byte (2 * p + 1))). split; [apply N; lia|]. split; [apply N; lia|].
  unfold pixel_byte. replace (2 * p / 2) with p by (rewrite Z.mul_comm, Z.div_mul; lia). replace ((2 * p) mod 2) with 0 by (rewrite Z.mul_comm, Z.mod_mul; lia).
  replace ((2 * p + 1) / 2) with p by (rewrite (Z.mul_comm 2 p), Z.div_add_l, Z.add_0_r by lia; reflexivity). replace ((2 * p + 1) mod 2) with 1 by (rewrite Z.add_comm, (Z.mul_comm 2 p), Z.mod_add by lia; reflexivity). cbn [Z.eqb].
  change (2 ^ 16) with 65536. pose proof (Z.mod_pos_bound p 65536 ltac:(lia)) as B. set (v := p mod 65536) in *. clearbody v. pose proof (Z.mod_pos_bound v 256 ltac:(lia)). pose proof (Z.div_mod v 256 ltac:(lia)). assert (0 <= v / 256 < 256) by (split; [apply Z.div_pos; lia|apply Z.div_lt_upper_bound; lia]).
  split; [lia|]. split; [lia|]. rewrite N2Z.inj_add, N2Z.inj_mul, !Z2N.id by lia. change (Z.of_N 256) with 256. lia.
Qed.
Example c66_pixels_case : 0 <= 300 * 2 /\ 0 <= 258 < 300 * 2 /\ nth_error (simulated 300 2) 516 = Some 2%N /\ nth_error (simulated 300 2) 517 = Some 1%N.
Proof. split; [lia|]. split; [lia|]. split; vm_compute; reflexivity. Qed.
Print Assumptions c66_pixels.
