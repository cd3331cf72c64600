(** Proofs about plugin connections, messages and timings. *)
From Coq Require Import Sorted.
From Verif Require Import Base StrOrder PluginModel PluginSpec.

Definition reg_do {A} (o : reg_op A) (p : conns A) : conns A :=
  match o with Register n cb b => register n cb b p | Remove n => remove n p | RemoveAll => remove_all p end.
Definition reg_run {A} (h : list (reg_op A)) (p : conns A) : conns A := fold_left (fun p o => reg_do o p) h p.

Record conns_ok {A} (p : conns A) : Prop := {
  co_b : sm_ok (c_block p); co_q : sm_ok (c_queue p);
  co_one : forall n, sm_get (c_block p) n = None \/ sm_get (c_queue p) n = None }.
Definition entry {A} (p : conns A) (n : string) : option (bool * A) :=
  match sm_get (c_block p) n with
  | Some cb => Some (true, cb)
  | None => match sm_get (c_queue p) n with Some cb => Some (false, cb) | None => None end
  end.

Lemma reg_do_ok {A} (o : reg_op A) p : conns_ok p -> conns_ok (reg_do o p).
Proof.
  intros [B Q O]. destruct o as [n cb b|n|]; cbn; unfold register, remove, remove_all.
  - destruct b.
    + destruct (sm_get (c_queue p) n) eqn:Eq; [constructor; auto|]. destruct (sm_get (c_block p) n) eqn:Eb; [constructor; auto|].
      constructor; cbn; auto using sm_put_ok. intros m. rewrite sm_get_put. destruct (String.eqb_spec m n) as [->|]; auto.
    + destruct (sm_get (c_block p) n) eqn:Eb; [constructor; auto|]. destruct (sm_get (c_queue p) n) eqn:Eq; [constructor; auto|].
      constructor; cbn; auto using sm_put_ok. intros m. rewrite sm_get_put. destruct (String.eqb_spec m n) as [->|]; auto.
  - destruct (sm_get (c_queue p) n) eqn:Eq; [|destruct (sm_get (c_block p) n) eqn:Eb; [|constructor; auto]];
      constructor; cbn; auto using sm_del_ok; intros m; rewrite sm_get_del by assumption; destruct (String.eqb m n); auto.
  - constructor; cbn; auto.
Qed.

Lemma reg_do_entry {A} (o : reg_op A) p n : conns_ok p -> entry (reg_do o p) n = connected [o] (entry p n) n.
Proof.
  intros [B Q O]. unfold entry. destruct o as [m cb b|m|]; cbn; unfold register, remove, remove_all; [| |reflexivity].
  - specialize (O m). destruct b.
    + destruct (sm_get (c_queue p) m) eqn:Eq.
      * destruct O as [Eb|]; [|discriminate]. destruct (String.eqb_spec m n) as [->|]; [rewrite Eb, Eq; reflexivity|reflexivity].
      * destruct (sm_get (c_block p) m) eqn:Eb.
        -- destruct (String.eqb_spec m n) as [->|]; [rewrite Eb; reflexivity|reflexivity].
        -- cbn. rewrite sm_get_put, (String.eqb_sym n m). destruct (String.eqb_spec m n) as [->|]; [rewrite Eb, Eq; reflexivity|reflexivity].
    + destruct (sm_get (c_block p) m) eqn:Eb.
      * destruct (String.eqb_spec m n) as [->|]; [rewrite Eb; reflexivity|reflexivity].
      * destruct (sm_get (c_queue p) m) eqn:Eq.
        -- destruct (String.eqb_spec m n) as [->|]; [rewrite Eb, Eq; reflexivity|reflexivity].
        -- cbn. rewrite sm_get_put, (String.eqb_sym n m). destruct (String.eqb_spec m n) as [->|]; [rewrite Eb, Eq; reflexivity|reflexivity].
  - specialize (O m). destruct (sm_get (c_queue p) m) eqn:Eq.
    + destruct O as [Eb|]; [|discriminate]. cbn. rewrite sm_get_del, (String.eqb_sym n m) by exact Q.
      destruct (String.eqb_spec m n) as [->|]; [rewrite Eb; reflexivity|reflexivity].
    + destruct (sm_get (c_block p) m) eqn:Eb; cbn.
      * rewrite sm_get_del, (String.eqb_sym n m) by exact B. destruct (String.eqb_spec m n) as [->|]; [rewrite Eq; reflexivity|reflexivity].
      * destruct (String.eqb_spec m n) as [->|]; [rewrite Eb, Eq; reflexivity|reflexivity].
Qed.

Lemma reg_run_ok {A} (h : list (reg_op A)) : forall p, conns_ok p -> conns_ok (reg_run h p) /\ forall n, entry (reg_run h p) n = connected h (entry p n) n.
Proof.
  induction h as [|o h IH]; intros p P; [auto|]. cbn [reg_run fold_left]. destruct (IH (reg_do o p) (reg_do_ok o p P)) as (I1 & I2).
  split; [exact I1|]. intros n. unfold reg_run in I2. rewrite I2, reg_do_entry by exact P. destruct o; reflexivity.
Qed.

Lemma call_all_all {A} (call : A -> bool) m : (forall n cb, In (n, cb) m -> call cb = true) -> call_all call m = (map (fun e => Called (fst e) (snd e)) m, true).
Proof.
  induction m as [|[n cb] t IH]; intros H; [reflexivity|]. cbn. rewrite (H n cb) by (left; reflexivity). rewrite IH; [reflexivity|].
  intros n' cb' H'. apply (H n' cb'). right. exact H'.
Qed.
(** In general the calls made are the first ones, up to the first that throws. *)
Lemma call_all_prefix {A} (call : A -> bool) m : exists rest,
  map (fun e => Called (fst e) (snd e)) m = fst (call_all call m) ++ rest /\ (snd (call_all call m) = true -> rest = []).
Proof.
  induction m as [|[n cb] t IH]; [exists []; auto|]. cbn. destruct (call cb); [|eexists; split; [reflexivity|discriminate]].
  destruct (call_all call t) as [d r]. destruct IH as (rest & E & F). cbn in *. exists rest. rewrite E. auto.
Qed.

Definition all_deliveries {A} (p : conns A) : list (delivery A) :=
  map (fun e => Called (fst e) (snd e)) (c_block p) ++ map (fun e => Queued (fst e) (snd e)) (c_queue p).
Lemma names_all {A} (p : conns A) : map d_name (all_deliveries p) = map fst (c_block p) ++ map fst (c_queue p).
Proof. unfold all_deliveries. rewrite map_app, !map_map. reflexivity. Qed.

Lemma all_nodup {A} (p : conns A) : conns_ok p -> NoDup (map d_name (all_deliveries p)).
Proof.
  intros [B Q O]. rewrite names_all. pose proof (sm_nodup _ B) as N1. pose proof (sm_nodup _ Q) as N2.
  assert (D : forall x, In x (map fst (c_block p)) -> ~ In x (map fst (c_queue p))).
  { intros x H1 H2. apply in_map_iff in H1 as ([a b] & <- & H1). apply in_map_iff in H2 as ([a' b'] & E & H2). cbn in *. subst a'.
    apply sm_in_get in H1; [|exact B]. apply sm_in_get in H2; [|exact Q]. destruct (O a); congruence. }
  revert N1 D. induction (map fst (c_block p)) as [|x l IH]; cbn; [auto|]. intros N1 D. inversion_clear N1 as [|? ? H1 H2]. constructor.
  - rewrite in_app_iff. intros [H|H]; [auto|]. exact (D x (or_introl eq_refl) H).
  - apply IH; [exact H2|]. intros y Hy. apply D. right. exact Hy.
Qed.
Lemma all_in {A} (p : conns A) d : conns_ok p -> In d (all_deliveries p) <-> entry p (d_name d) = Some (d_entry d).
Proof.
  intros [B Q O]. unfold all_deliveries, entry. rewrite in_app_iff, !in_map_iff. split.
  - intros [([n cb] & <- & H)|([n cb] & <- & H)]; cbn.
    + rewrite (sm_in_get _ _ _ B H). reflexivity.
    + apply sm_in_get in H; [|exact Q]. destruct (O n) as [->|]; [|congruence]. rewrite H. reflexivity.
  - destruct d as [n cb|n cb]; cbn; destruct (sm_get (c_block p) n) eqn:Eb.
    + intros [= ->]. left. exists (n, cb). split; [reflexivity|apply sm_get_in, Eb].
    + destruct (sm_get (c_queue p) n); discriminate.
    + discriminate.
    + destruct (sm_get (c_queue p) n) eqn:Eq; [|discriminate]. intros [= ->]. right. exists (n, cb). split; [reflexivity|apply sm_get_in, Eq].
Qed.

Lemma sm_sorted {A} (m : smap A) : sm_ok m -> StronglySorted (fun x y => String.ltb x y = true) (map fst m).
Proof.
  induction m as [|[k v] t IH]; cbn; [constructor|]. intros (F & O). constructor; [auto|]. rewrite Forall_map. exact F.
Qed.

Lemma push_result {A} (call : A -> bool) p : push call true p =
  (if snd (call_all call (c_block p)) then (all_deliveries p, true) else (fst (call_all call (c_block p)), false)).
Proof.
  unfold push, all_deliveries. destruct (call_all_prefix call (c_block p)) as (rest & E & F). destruct (call_all call (c_block p)) as [d r]. cbn in *.
  destruct r; [|reflexivity]. rewrite E, (F eq_refl), app_nil_r. reflexivity.
Qed.

(** ** Messages *)
Definition msg_do (o : msg_op) (s : msgs) : msgs := match o with Err m => set_error m s | Warn m => set_warning m s | Clear => clear_errors s end.
Definition msg_run (h : list msg_op) : msgs := fold_left (fun s o => msg_do o s) h (Msgs [] []).

Lemma firsts_in l l' : firsts l l' -> forall x, In x l' <-> In x l.
Proof.
  induction 1 as [|l l' m F IH H|l l' m F IH H]; intros x; [reflexivity| |].
  - rewrite in_app_iff, IH. cbn. split; [auto|]. intros [K|[<-|[]]]; auto.
  - rewrite !in_app_iff, IH. reflexivity.
Qed.
Lemma add_once_firsts l l' m : firsts l l' -> firsts (l ++ [m]) (add_once m l').
Proof.
  intros F. unfold add_once. destruct (existsb (String.eqb m) l') eqn:E.
  - apply f_old; [exact F|]. apply (firsts_in _ _ F). apply existsb_exists in E as (x & Hx & Ex). apply String.eqb_eq in Ex. congruence.
  - apply f_new; [exact F|]. intros H. apply (firsts_in _ _ F) in H. rewrite <- not_true_iff_false in E. apply E, existsb_exists.
    exists m. split; [exact H|apply String.eqb_refl].
Qed.
Lemma firsts_nodup l l' : firsts l l' -> NoDup l'.
Proof.
  induction 1 as [|l l' m F IH H|l l' m F IH H]; [constructor|exact IH|].
  apply NoDup_app_comm || idtac. rewrite <- (rev_involutive (l' ++ [m])). apply NoDup_rev. rewrite rev_app_distr. cbn. constructor; [|apply NoDup_rev, IH].
  rewrite <- in_rev. rewrite (firsts_in _ _ F). exact H.
Qed.

Definition is_clear (o : msg_op) : bool := match o with Clear => true | _ => false end.
Lemma since_clear_snoc h o : since_clear (h ++ [o]) = if is_clear o then [] else since_clear h ++ [o].
Proof.
  destruct (is_clear o) eqn:C.
  - induction h as [|a h IH]; cbn; [destruct o; try discriminate; reflexivity|].
    assert (X : existsb is_clear (h ++ [o]) = true) by (apply existsb_exists; exists o; split; [apply in_or_app; right; left; reflexivity|exact C]).
    change (existsb (fun o => match o with Clear => true | _ => false end) (h ++ [o])) with (existsb is_clear (h ++ [o])).
    rewrite X, orb_true_r. exact IH.
  - induction h as [|a h IH]; cbn; [destruct o; try discriminate; reflexivity|].
    change (fun o => match o with Clear => true | _ => false end) with is_clear. change (match a with Clear => true | _ => false end) with (is_clear a).
    rewrite existsb_app. cbn [existsb]. rewrite C, orb_false_r, orb_false_r || rewrite C, !orb_false_r.
    destruct (is_clear a || existsb is_clear h); [exact IH|reflexivity].
Qed.

Lemma msgs_ok h : firsts (errs (since_clear h)) (e_list (msg_run h)) /\ firsts (warns (since_clear h)) (w_list (msg_run h)).
Proof.
  induction h as [|o h IH] using rev_ind; [split; constructor|]. unfold msg_run in *. rewrite fold_left_app, since_clear_snoc. cbn.
  destruct IH as (IE & IW). destruct o as [m|m|]; cbn; unfold errs, warns in *; rewrite ?flat_map_app; cbn; rewrite ?app_nil_r.
  - split; [apply add_once_firsts, IE|exact IW].
  - split; [exact IE|apply add_once_firsts, IW].
  - split; constructor.
Qed.

(** ** Timings *)
Definition dur_run (l : list N) (d : dur) : dur := fold_left (fun d t => dur_update t d) l d.
Lemma dur_max l : forall d, d_max (dur_run l d) = fold_left N.max (map (fun t => t mod 2 ^ 32)%N l) (d_max d).
Proof.
  induction l as [|t l IH]; intros d; [reflexivity|]. cbn [dur_run fold_left map]. unfold dur_run in IH. rewrite IH. f_equal. cbn [d_max dur_update].
  destruct (N.ltb_spec (d_max d) (t mod 2 ^ 32)); lia.
Qed.
Lemma dur_mean lo hi l : (forall t, In t l -> lo <= t mod 2 ^ 32 <= hi)%N -> forall d, (d_mean d = 0 \/ lo <= d_mean d <= hi)%N ->
  (d_mean (dur_run l d) = 0 \/ lo <= d_mean (dur_run l d) <= hi)%N.
Proof.
  induction l as [|t l IH]; intros H d D; [exact D|]. cbn [dur_run fold_left]. unfold dur_run in IH. apply IH; [intros u Hu; apply H; right; exact Hu|].
  specialize (H t (or_introl eq_refl)). cbn [d_mean dur_update]. right. destruct (N.eqb_spec (d_mean d) 0); [exact H|].
  destruct D as [D|D]; [contradiction|]. split; [apply N.div_le_lower_bound; lia|apply N.div_le_upper_bound; lia].
Qed.
