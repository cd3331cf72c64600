From Coq Require Import String Ascii.
From Verif Require Import Base JsonModel JsonSpec JsonProofs.
Local Open Scope string_scope.
Local Open Scope list_scope.

Lemma json_ind' (P : json -> Prop) : (forall x, ~ object x -> P x) -> (forall l, (forall n y, In (n, y) l -> P y) -> P (JObj l)) -> forall x, P x.
Proof.
  intros HL HO. fix IH 1. intros [| | | | | |l]; try (apply HL; intros (? & ?); discriminate). apply HO. induction l as [|[k z] l IHl]; [intros n y []|]. intros n y [E|H]; [injection E as _ <-; apply IH|]. apply (IHl n y H).
Qed.

Lemma good_tree_ind' (P : json -> Prop) : (forall x, ~ object x -> P x) ->
  (forall l, NoDup (map fst l) -> (forall n y, In (n, y) l -> no_slash n /\ no_nul n /\ plain n /\ good_tree y) -> (forall n y, In (n, y) l -> P y) -> P (JObj l)) -> forall x, good_tree x -> P x.
Proof.
  intros HL HO x. induction x as [x N|l IH] using json_ind'; intros G; [apply HL, N|]. inversion G as [? N|? ND GS]; subst; [destruct N; eexists; reflexivity|]. apply HO; [exact ND|exact GS|]. intros n y H. apply (IH n y H), (GS n y H).
Qed.
Lemma find_nodup k l y : NoDup (map fst l) -> In (k, y) l -> find_member k l = Some y.
Proof.
  induction l as [|[n x] l IH]; [intros _ []|]. intros N [H|H]; cbn in N; inversion N as [|? ? A B]; subst; cbn.
  - injection H as -> ->. rewrite String.eqb_refl. reflexivity.
  - destruct (String.eqb_spec n k) as [->|]; [destruct A; apply in_map_iff; exists (k, y); auto|auto].
Qed.
Lemma find_in k l y : find_member k l = Some y -> In (k, y) l.
Proof. intros H. apply find_split in H as (l1 & l2 & -> & _). apply in_or_app. right. left. reflexivity. Qed.
Lemma append_assoc a b c : append (append a b) c = append a (append b c). Proof. induction a as [|x a IH]; cbn; [reflexivity|rewrite IH; reflexivity]. Qed.

Fixpoint leaves (x : json) : list (list string * json) :=
  match x with
  | JObj l => (fix each (l : list (string * json)) := match l with [] => [] | (n, y) :: r => map (fun e => (n :: fst e, snd e)) (leaves y) ++ each r end) l
  | _ => [([], x)]
  end.
Lemma leaves_obj l : leaves (JObj l) = flat_map (fun e => map (fun p => (fst e :: fst p, snd p)) (leaves (snd e))) l.
Proof. induction l as [|[n y] l IH]; cbn; [reflexivity|]. f_equal. exact IH. Qed.
Lemma leaves_leaf x : ~ object x -> leaves x = [([], x)]. Proof. intros H. destruct x; try reflexivity. destruct H. eexists. reflexivity. Qed.

Lemma in_leaves x : good_tree x -> forall c v, In (c, v) (leaves x) <-> leaf c v x.
Proof.
  intros G. induction G as [x N|l ND GS IH] using good_tree_ind'.
  - intros c v. rewrite leaves_leaf by exact N. unfold leaf. rewrite leads_at. split.
    + intros [E|[]]. injection E as <- <-. split; [reflexivity|exact N].
    + intros (L & O). destruct c as [|n c]; [injection L as ->; left; reflexivity|]. cbn in L. destruct x; try discriminate. destruct N. eexists. reflexivity.
  - intros c v. rewrite leaves_obj, in_flat_map. unfold leaf. rewrite leads_at. split.
    + intros ([n y] & I & J). apply in_map_iff in J as ([d w] & E & J). injection E as <- <-. apply (IH n y I) in J. destruct J as (L & O). split; [|exact O]. cbn. assert (F : find_member n l = Some y) by (apply find_nodup; assumption). rewrite F. apply leads_at, L.
    + intros (L & O). destruct c as [|n c]; [injection L as <-; destruct O; eexists; reflexivity|]. cbn in L. destruct (find_member n l) as [y|] eqn:F; [|discriminate]. assert (I : In (n, y) l) by (apply find_in, F). exists (n, y). split; [exact I|]. apply in_map_iff. exists (c, v). split; [reflexivity|].
      apply (IH n y I). split; [apply leads_at, L|exact O].
Qed.

Fixpoint sets (l : list (list string * json)) (x : json) : option json := match l with [] => Some x | (c, v) :: r => match set_at c v x with Some x' => sets r x' | None => None end end.
Lemma sets_app a b x : sets (a ++ b) x = match sets a x with Some y => sets b y | None => None end.
Proof. revert x. induction a as [|[c v] a IH]; intros x; cbn; [reflexivity|]. destruct (set_at c v x); [apply IH|reflexivity]. Qed.

(** Pairwise apart. *)
Fixpoint all_apart (l : list (list string)) : Prop := match l with [] => True | c :: r => (forall d, In d r -> apart c d) /\ all_apart r end.
Lemma all_apart_app a b : all_apart (a ++ b) <-> all_apart a /\ all_apart b /\ forall c d, In c a -> In d b -> apart c d.
Proof.
  induction a as [|x a IH]; cbn; [tauto|]. rewrite IH. setoid_rewrite in_app_iff. split.
  - intros (A & B & C & D). split; [split; auto|]. split; [exact C|]. intros c e [<-|H] K; auto.
  - intros ((A & B) & C & D). split; [intros d [H|H]; auto|]. split; [exact B|]. split; [exact C|]. intros c d H K. apply D; auto.
Qed.
Lemma all_apart_map n l : all_apart l -> all_apart (map (cons n) l).
Proof. induction l as [|c l IH]; cbn; [auto|]. intros (A & B). split; [|auto]. intros d H. apply in_map_iff in H as (e & <- & H). apply apart_cons, A, H. Qed.
Lemma leaves_apart x : good_tree x -> all_apart (map fst (leaves x)).
Proof.
  intros G. induction G as [x N|l ND GS IH] using good_tree_ind'.
  - rewrite leaves_leaf by exact N. cbn. split; [intros d []|exact I].
  - rewrite leaves_obj. clear GS. induction l as [|[n y] l IHl]; cbn; [exact I|]. inversion ND as [|? ? A B]; subst. rewrite map_app, all_apart_app. split; [|split].
    + rewrite map_map. cbn. rewrite <- (map_map fst (cons n)). apply all_apart_map, (IH n y). left. reflexivity.
    + apply IHl; [exact B|]. intros k z H. apply (IH k z). right. exact H.
    + intros c d H K. rewrite map_map in H. apply in_map_iff in H as (e & <- & _). apply in_map_iff in K as ([d' v] & <- & K). apply in_flat_map in K as ([k z] & K1 & K2). apply in_map_iff in K2 as (w & E & _). injection E as <- <-. cbn. apply apart_head. intros ->. apply A, in_map_iff. exists (k, z). split; [reflexivity|exact K1].
Qed.

Lemma sets_other l x x' q : sets l x = Some x' -> (forall c v, In (c, v) l -> apart c q) -> at_path q x' = at_path q x.
Proof.
  revert x. induction l as [|[c v] l IH]; intros x S A; cbn in S; [injection S as ->; reflexivity|]. destruct (set_at c v x) as [y|] eqn:E; [|discriminate]. rewrite (IH y S); [|intros d w H; apply (A d w); right; exact H]. apply (set_at_apart _ _ _ _ _ E). apply (A c v). left. reflexivity.
Qed.
Lemma sets_leaf l x x' c v : sets l x = Some x' -> all_apart (map fst l) -> In (c, v) l -> at_path c x' = Some v.
Proof.
  revert x. induction l as [|[d w] l IH]; [intros x _ _ []|]. intros x S A [E|H]; cbn in S; destruct (set_at d w x) as [y|] eqn:SE; try discriminate; cbn in A; destruct A as (A & B).
  - injection E as -> ->. rewrite (sets_other l y x' c S); [rewrite <- (app_nil_r c); exact (set_at_below _ _ _ _ [] SE)|]. intros e u K. apply apart_sym. apply A. apply in_map_iff. exists (e, u). split; [reflexivity|exact K].
  - exact (IH y S B H).
Qed.
Lemma sets_some l x : all_apart (map fst l) -> (forall c v, In (c, v) l -> way c x) -> exists x', sets l x = Some x'.
Proof.
  revert x. induction l as [|[c v] l IH]; intros x A W; cbn; [eauto|]. cbn in A. destruct A as (A & B). destruct (set_at_some c v x (W c v (or_introl eq_refl))) as (y & E). rewrite E. apply IH; [exact B|]. intros d w H. eapply way_after; [exact E| |apply (W d w); right; exact H]. apply A. apply in_map_iff. exists (d, w). split; [reflexivity|exact H].
Qed.
Lemma sets_none l x : all_apart (map fst l) -> sets l x = None -> exists c v, In (c, v) l /\ ~ way c x.
Proof.
  revert x. induction l as [|[c v] l IH]; intros x A S; cbn in S; [discriminate|]. cbn in A. destruct A as (A & B). destruct (set_at c v x) as [y|] eqn:E.
  - destruct (IH y B S) as (d & w & H & N). exists d, w. split; [right; exact H|]. intros W. apply N. eapply way_after; [exact E| |exact W]. apply A. apply in_map_iff. exists (d, w). split; [reflexivity|exact H].
  - exists c, v. split; [left; reflexivity|]. intros W. destruct (set_at_some c v x W) as (y & F). rewrite F in E. discriminate.
Qed.
Lemma sets_again l x : (forall c v, In (c, v) l -> at_path c x = Some v) -> sets l x = Some x.
Proof. induction l as [|[c v] l IH]; intros H; cbn; [reflexivity|]. rewrite (set_at_same c v x) by (apply H; left; reflexivity). apply IH. intros d w K. apply H. right. exact K. Qed.

(** update_value is a sequence of settings. *)
Definition name_ok (n : string) : Prop := no_slash n /\ no_nul n /\ plain n.
Lemma slashed_snoc c n : c <> [] -> slashed (c ++ [n]) = append (slashed c) (append "/" n).
Proof.
  induction c as [|k c IH]; [congruence|]. intros _. destruct c as [|j c]; [reflexivity|]. change (slashed ((k :: j :: c) ++ [n])) with (append k (append "/" (slashed ((j :: c) ++ [n])))). rewrite IH by discriminate. change (slashed (k :: j :: c)) with (append k (append "/" (slashed (j :: c)))).
  rewrite !append_assoc. reflexivity.
Qed.
Lemma slashed_empty c : Forall name_ok c -> (String.eqb (slashed c) "" = true <-> c = []).
Proof.
  intros F. rewrite String.eqb_eq. split; [|intros ->; reflexivity]. destruct c as [|n c]; [reflexivity|]. inversion F as [|? ? (_ & _ & P) _]; subst. destruct n as [|a n]; [destruct P as (P & _); cbn in P; lia|]. destruct c; discriminate.
Qed.
Lemma good_path_all c : c <> [] -> Forall name_ok c -> good_path c.
Proof.
  intros N F. split; [exact N|]. split; [eapply Forall_impl; [|exact F]; intros ? H; apply H|]. split; [eapply Forall_impl; [|exact F]; intros ? H; apply H|]. rewrite Forall_forall in F. split; apply F; [destruct c; [congruence|left; reflexivity]|].
  destruct (@exists_last _ c N) as (d & n & ->). rewrite last_snoc. apply in_or_app. right. left. reflexivity.
Qed.
Lemma sets_object l x x' : (forall c v, In (c, v) l -> exists n d, c = n :: d) -> object x -> sets l x = Some x' -> object x'.
Proof.
  revert x. induction l as [|[c v] l IH]; intros x H O S; cbn in S; [injection S as <-; exact O|]. destruct (set_at c v x) as [y|] eqn:E; [|discriminate]. apply (IH y); [intros d w K; apply (H d w); right; exact K| |exact S].
  destruct (H c v (or_introl eq_refl)) as (n & d & ->). cbn in E. destruct x; try discriminate. destruct (set_at d v _); [|discriminate]. injection E as <-. eexists. reflexivity.
Qed.
Definition at_params (pre : list string) (l : list (list string * json)) : list (list string * json) := map (fun e => ("params" :: pre ++ fst e, snd e)) l.

Lemma update_leaf x path m : ~ object x -> update_value x path m = set_param m path (XJson x).
Proof. intros N. destruct x; try reflexivity. destruct N. eexists. reflexivity. Qed.
Lemma update_eq x : good_tree x -> forall pre m, Forall name_ok pre -> (pre = [] -> object x) ->
  match sets (at_params pre (leaves x)) (JObj (g_doc m)) with Some (JObj d) => update_value x (slashed pre) m = (with_doc d m, Ret tt) | _ => snd (update_value x (slashed pre) m) = Throw EAssert end.
Proof.
  intros G. induction G as [x N|l ND GS IH] using good_tree_ind'; intros pre m F O.
  - rewrite leaves_leaf by exact N. cbn [at_params map sets fst snd]. rewrite app_nil_r. assert (PN : pre <> []) by (intros E; apply N, O, E).
    assert (S : update_value x (slashed pre) m = set_param m (slashed pre) (XJson x)) by (apply update_leaf, N). rewrite S, (set_param_eq _ _ _ (good_path_all _ PN F)). cbn [set_value].
    destruct (set_at ("params" :: pre) x (JObj (g_doc m))) as [y|]; [|reflexivity]. destruct y; reflexivity.
  - rewrite leaves_obj. clear O ND. revert m. induction l as [|[n y] l IHl]; intros m.
    + cbn. rewrite with_doc_same. reflexivity.
    + cbn [flat_map fst snd]. assert (GN : name_ok n /\ good_tree y) by (destruct (GS n y (or_introl eq_refl)) as (A & B & C & D); repeat split; try assumption; apply C). destruct GN as (NO & _).
      assert (PE : (if String.eqb (slashed pre) "" then cstr n else append (slashed pre) (append "/" (cstr n))) = slashed (pre ++ [n])).
      { rewrite (cstr_id n) by apply NO. pose proof (slashed_empty pre F) as E. destruct (String.eqb (slashed pre) "") eqn:X; [rewrite (proj1 E eq_refl); reflexivity|]. rewrite slashed_snoc; [reflexivity|]. intros ->. discriminate. }
      assert (SE : at_params pre (map (fun p => (n :: fst p, snd p)) (leaves y)) = at_params (pre ++ [n]) (leaves y)) by (unfold at_params; rewrite map_map; apply map_ext; intros [c v]; cbn; rewrite <- app_assoc; reflexivity).
      unfold at_params at 1. rewrite map_app, sets_app. fold (at_params pre (map (fun p => (n :: fst p, snd p)) (leaves y))). rewrite SE.
      assert (IHy := IH n y (or_introl eq_refl) (pre ++ [n]) m). cbn [update_value]. rewrite PE.
      specialize (IHy ltac:(apply Forall_app; split; [exact F|repeat constructor; apply NO]) ltac:(intros E; destruct pre; discriminate)).
      assert (OB : forall z, sets (at_params (pre ++ [n]) (leaves y)) (JObj (g_doc m)) = Some z -> object z).
      { intros z. apply sets_object; [|eexists; reflexivity]. intros c v H. apply in_map_iff in H as (e & E & _). injection E as <- _. eauto. }
      destruct (sets (at_params (pre ++ [n]) (leaves y)) (JObj (g_doc m))) as [z|].
      * destruct (OB z eq_refl) as (d & ->). rewrite IHy. specialize (IHl (fun k w H => GS k w (or_intror H)) (fun k w H => IH k w (or_intror H)) (with_doc d m)). cbn [update_value with_doc g_doc] in IHl. exact IHl.
      * destruct (update_value y (slashed (pre ++ [n])) m) as [m1 o]. cbn in IHy. subst o. reflexivity.
Qed.
Lemma sets_way l x x' c v q r z : sets l x = Some x' -> all_apart (map fst l) -> In (c, v) l -> c = q ++ r -> r <> [] -> at_path q x = Some z -> exists d, z = JObj d.
Proof.
  revert x. induction l as [|[k w] l IH]; [intros x _ _ []|]. intros x S A [E|H] EQ N L; cbn in S; destruct (set_at k w x) as [y|] eqn:SE; try discriminate; cbn in A; destruct A as (A & B).
  - injection E as -> ->. eapply set_at_blocks; eassumption.
  - assert (AK : apart k c) by (apply A, in_map_iff; exists (c, v); auto).
    destruct (classic_starts q k) as [(s & Es)|NS].
    + destruct s as [|n s]; [|exact (set_at_blocks _ _ _ _ q (n :: s) _ SE Es ltac:(discriminate) L)]. rewrite app_nil_r in Es. subst q. destruct AK as (AK & _). destruct AK. exists r. exact EQ.
    + apply (IH y S B H EQ N). rewrite (set_at_apart _ _ _ _ q SE); [exact L|]. split; [|exact NS]. intros (s & ->). destruct AK as (AK & _). apply AK. exists (s ++ r). rewrite EQ, app_assoc. reflexivity.
Qed.
