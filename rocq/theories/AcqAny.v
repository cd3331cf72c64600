(** Facts about single calls, in any state. *)
From Verif Require Import Base PlaceModel NameModel AcqModel AcqSpec AcqProofs AcqInv AcqThms.
Local Open Scope N_scope.

Lemma valid_matches a f : check_frame_valid a f = true -> matches (a_defs a) f.
Proof.
  unfold check_frame_valid, matches.
  destruct (find_def (a_defs a) (f_dataset f)) as [d|] eqn:E; [|discriminate]. intros H.
  apply find_some in E. destruct E as (Hin & Hn). apply String.eqb_eq in Hn.
  rewrite negb_true_iff, !orb_false_iff in H. destruct H as ((Hc & Ht) & Hd).
  exists d. split; [exact Hin|]. split; [exact Hn|]. apply negb_false_iff in Hd. apply eqb_dims_eq in Hd.
  split; [destruct (f_comp f); discriminate|]. split.
  { destruct (f_comp f); try discriminate; apply negb_false_iff, ctype_eqb_eq in Hc; exact Hc. }
  split; [destruct (f_type f); discriminate|]. split; [|exact Hd].
  destruct (f_type f); try discriminate; apply negb_false_iff, dtype_eqb_eq in Ht; exact Ht.
Qed.

Lemma mismatch_refused i f s : ~ matches (a_defs (s_acq s)) f -> process_frame i f s = (s, Some SInvalid).
Proof.
  intros H. unfold process_frame, process_body. rewrite bind_get.
  destruct (check_frame_valid (s_acq s) f) eqn:E; [destruct H; apply valid_matches, E|]. reflexivity.
Qed.

(** The counters never go down. *)
Definition up {A} (m : M A) : Prop := forall s,
  a_written (s_acq s) <= a_written (s_acq (fst (m s))) /\ a_processed (s_acq s) <= a_processed (s_acq (fst (m s))).

Lemma up_same {A} (m : M A) : (forall s, a_written (s_acq (fst (m s))) = a_written (s_acq s) /\ a_processed (s_acq (fst (m s))) = a_processed (s_acq s)) -> up m.
Proof. intros H s. destruct (H s) as (-> & ->). lia. Qed.

Lemma up_bind {A B} (m : M A) (k : A -> M B) : up m -> (forall a, up (k a)) -> up (bind m k).
Proof.
  intros Hm Hk s. unfold bind. specialize (Hm s). destruct (m s) as [s1 [a|e|]]; cbn [fst] in *; [|exact Hm|exact Hm].
  specialize (Hk a s1). lia.
Qed.

Lemma up_bind_get {B} (k : st -> M B) : (forall s, up (k s)) -> up (bind get k).
Proof. intros H. apply up_bind; [apply up_same; intros; split; reflexivity|exact H]. Qed.

Ltac up_base := apply up_same; intros; split; reflexivity.

Lemma up_close f : up (close_file f).
Proof. destruct f; up_base. Qed.
Lemma up_lift {A} (o : outcome Empty_set A) : up (lift o).
Proof. destruct o as [a|[]|]; up_base. Qed.
Lemma up_olift {A} (o : outcome exn A) : up (olift o).
Proof. destruct o; up_base. Qed.
Lemma up_put_file w f : up (put_file w f).
Proof. destruct w; up_base. Qed.

Ltac up := repeat (match goal with
  | |- up (bind get _) => apply up_bind_get; intro
  | |- up (bind _ _) => apply up_bind; [|intro]
  | |- up (ret _) => up_base
  | |- up (throw _) => up_base
  | |- up undef => up_base
  | |- up (emit _) => up_base
  | |- up (set_disk _) => up_base
  | |- up (put_cur _) => up_base
  | |- up (put_prev _) => up_base
  | |- up (put_file _ _) => apply up_put_file
  | |- up (close_file _) => apply up_close
  | |- up (lift _) => apply up_lift
  | |- up (olift _) => apply up_olift
  | |- up (if ?b then _ else _) => destruct b
  | |- up (match ?x with _ => _ end) => destruct x
  | |- up (let _ := _ in _) => cbv zeta
  end).

Lemma up_create_datasets i n ds : up (create_datasets i n ds).
Proof.
  induction ds as [|d t IH]; cbn [create_datasets]; up; try exact IH.
  - unfold validate_definition. up.
  - unfold create_dataset. up.
Qed.
Lemma up_create_file i n : up (create_file i n).
Proof. unfold create_file. up; apply up_create_datasets. Qed.
Lemma up_create_missing i fuel n : up (create_missing i fuel n).
Proof. induction fuel as [|k IH]; cbn [create_missing]; up; [apply up_create_file|exact IH]. Qed.
Lemma up_get_file i off : up (get_file i off).
Proof. unfold get_file. up; [apply up_create_missing|apply up_create_file]. Qed.
Lemma up_write_rows ok w name rows start data : up (write_rows ok w name rows start data).
Proof. unfold write_rows. up. Qed.
Lemma up_write_frame i w f off c0 : up (write_frame i w f off c0).
Proof. unfold write_frame. apply up_bind; [apply up_write_rows|intro]. unfold note_actual. up. Qed.
Lemma up_write_params i w ps off : up (write_params i w ps off).
Proof. induction ps as [|[n v] t IH]; cbn [write_params]; up; try exact IH. apply up_write_rows. Qed.
Lemma up_count f : up (count_frame f).
Proof.
  intros s. unfold count_frame. rewrite bind_get. cbv zeta. destruct (_ || _); [|cbn; lia].
  destruct (a_cur (s_acq s)) as [c|]; [|cbn; lia]. destruct (hf_dsets c _); [|cbn; lia]. destruct (_ =? 0); cbn; lia.
Qed.
Lemma up_process i f : up (process_body i f).
Proof.
  unfold process_body. up; first [apply up_get_file|apply up_write_frame|apply up_write_params|apply up_count|up].
Qed.

Lemma counters_monotone i f s s' r : process_frame i f s = (s', r) ->
  a_written (s_acq s) <= a_written (s_acq s') /\ a_processed (s_acq s) <= a_processed (s_acq s').
Proof.
  unfold process_frame. pose proof (up_process i f s) as H. destruct (process_body i f s) as [s1 [a|e|]];
    intros [= <- <-]; exact H.
Qed.
