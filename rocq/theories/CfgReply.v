(** What plugins put into replies. *)
From Coq Require Import String Ascii.
From Verif Require Import Base JsonModel JsonSpec JsonProofs JsonProps PrcModel PrcSpec PrcReply PrcLive PrcSet CfgModel CfgProofs.
Local Open Scope string_scope.
Local Open Scope list_scope.

Definition sub (a : list string) (x : json) : json := match at_path a x with Some y => y | None => JObj [] end.
Lemma set_at_app a c v x : set_at (a ++ c) v x = match set_at c v (sub a x) with Some z => set_at a z x | None => None end.
Proof.
  revert x. induction a as [|k a IH]; intros x; cbn [app set_at]; [unfold sub; cbn; destruct (set_at c v x); reflexivity|].
  destruct x as [| | | | | |l]; try (destruct (set_at c v _); reflexivity). rewrite IH. assert (E : sub a (match find_member k l with Some y => y | None => JObj [] end) = sub (k :: a) (JObj l)).
  { unfold sub. cbn. destruct (find_member k l); [reflexivity|]. destruct a; reflexivity. } rewrite E. destruct (set_at c v (sub (k :: a) (JObj l))); reflexivity.
Qed.
Lemma put_twice k a b l : put_member k b (put_member k a l) = put_member k b l.
Proof. induction l as [|(n, x) l IH]; cbn; [rewrite String.eqb_refl; reflexivity|]. destruct (String.eqb n k) eqn:E; cbn; rewrite E; [reflexivity|rewrite IH; reflexivity]. Qed.
Lemma set_at_twice c v v' x x' : set_at c v x = Some x' -> set_at c v' x' = set_at c v' x.
Proof.
  revert x x'. induction c as [|k c IH]; intros x x'; cbn; [reflexivity|]. destruct x as [| | | | | |l]; try discriminate. destruct (set_at c v _) as [y|] eqn:S; [|discriminate]. intros H. injection H as <-.
  rewrite find_put, String.eqb_refl. rewrite (IH _ _ S). destruct (set_at c v' _); [|reflexivity]. rewrite put_twice. reflexivity.
Qed.
Lemma sub_set c v x x' : set_at c v x = Some x' -> sub c x' = v.
Proof. intros S. unfold sub. pose proof (set_at_below _ _ _ _ [] S) as B. rewrite app_nil_r in B. rewrite B. reflexivity. Qed.
Lemma sub_app a b x : sub (a ++ b) x = sub b (sub a x).
Proof.
  unfold sub at 1 3. destruct (at_path a x) as [y|] eqn:E; [rewrite (at_app a b x y E); reflexivity|]. destruct (at_path (a ++ b) x) as [z|] eqn:Z; [apply leads_at in Z; destruct (no_lead_more a b x E z Z)|]. unfold sub. destruct b; reflexivity.
Qed.
Lemma set_at_way c v x x' : set_at c v x = Some x' -> way c x.
Proof.
  revert x x'. induction c as [|k c IH]; intros x x' S q t y E N L; [destruct q, t; try discriminate; congruence|]. cbn in S. destruct x as [| | | | | |l]; try discriminate. destruct (set_at c v _) as [z|] eqn:Z; [|discriminate].
  destruct q as [|k' q]; [injection L as <-; eexists; reflexivity|]. injection E as <- E. cbn in L. destruct (find_member k l) as [w|] eqn:F; [|discriminate]. exact (IH _ _ Z q t y E N L).
Qed.

(** ** Puts and pushes into one value *)
Inductive item := IPut (c : list string) (v : value) | IPush (c : list string) (n : string) (v : value).
Definition elems (y : json) : list json := match y with JArr l => l | _ => [] end.
Definition item_at (e : item) (x : json) : option json :=
  match e with IPut c v => set_at c (set_value v) x | IPush c n v => set_at (c ++ [n]) (JArr (elems (sub (c ++ [n]) x) ++ [set_value v])) x end.
Fixpoint grow (l : list item) (x : json) : option json := match l with [] => Some x | e :: t => match item_at e x with Some y => grow t y | None => None end end.
Definition under (p : list string) (e : item) : item := match e with IPut c v => IPut (p ++ c) v | IPush c n v => IPush (p ++ c) n v end.
Lemma item_under p e x : item_at (under p e) x = match item_at e (sub p x) with Some z => set_at p z x | None => None end.
Proof. destruct e as [c v|c n v]; cbn; [apply set_at_app|]. rewrite <- app_assoc, sub_app. apply set_at_app. Qed.
Lemma grow_under p l : forall x z x', l <> [] -> grow l (sub p x) = Some z -> set_at p z x = Some x' -> grow (map (under p) l) x = Some x'.
Proof.
  induction l as [|e l IH]; intros x z x' N G S; [congruence|]. cbn in *. rewrite item_under. destruct (item_at e (sub p x)) as [y|]; [|discriminate]. destruct l as [|e' l].
  - injection G as ->. rewrite S. reflexivity.
  - assert (E : exists x1, set_at p y x = Some x1). { destruct (set_at p y x) eqn:Q; [eauto|]. rewrite (set_at_any p y z x Q) in S. discriminate. } destruct E as (x1 & S1). rewrite S1. apply (IH x1 z x'); [discriminate|rewrite (sub_set _ _ _ _ S1); exact G|]. rewrite (set_at_twice _ _ _ _ _ S1). exact S.
Qed.
Lemma grow_app a b x y : grow a x = Some y -> grow (a ++ b) x = grow b y.
Proof. revert x. induction a as [|e a IH]; intros x; cbn; [intros H; injection H as ->; reflexivity|]. destruct (item_at e x); [apply IH|discriminate]. Qed.
Lemma grow_push n l : forall ms, l <> [] -> grow (map (IPush [] n) l) (JObj ms) = Some (JObj (put_member n (JArr (elems (match find_member n ms with Some y => y | None => JObj [] end) ++ map set_value l)) ms)).
Proof.
  assert (ST : forall v ms, item_at (IPush [] n v) (JObj ms) = Some (JObj (put_member n (JArr (elems (match find_member n ms with Some y => y | None => JObj [] end) ++ [set_value v])) ms))).
  { intros v ms. cbn. unfold sub. cbn. destruct (find_member n ms); reflexivity. }
  induction l as [|v l IH]; intros ms N; [congruence|]. cbn [map grow]. rewrite ST. destruct l as [|v' l]; [reflexivity|]. rewrite IH by discriminate. rewrite find_put, String.eqb_refl. cbn [elems]. rewrite put_twice, <- app_assoc. reflexivity.
Qed.

(** ** The reply *)
(** The part [i] of the parameters becomes [y]. *)
Definition grown (i : string) (y : json) (r r' : msg) : Prop := exists d, r' = with_doc d r /\ set_at ["params"; i] y (JObj (g_doc r)) = Some (JObj d).
Definition own (i : string) (r : msg) : json := sub ["params"; i] (JObj (g_doc r)).
Definition roomy (r : msg) : Prop := forall p, params_of r = Some p -> object p.
Lemma roomy_way i r : roomy r <-> way ["params"; i] (JObj (g_doc r)).
Proof.
  split.
  - intros R q t y E N L. destruct q as [|k q]; [injection L as <-; eexists; reflexivity|]. injection E as <- E. destruct q as [|k q]; [|injection E as <- E; destruct q, t; try discriminate; congruence]. cbn in L. destruct (find_member "params" (g_doc r)) as [p|] eqn:F; [|discriminate]. injection L as <-. apply R. exact F.
  - intros W p F. apply (W ["params"] [i] p eq_refl); [discriminate|]. cbn. unfold params_of in F. rewrite F. reflexivity.
Qed.
Lemma roomy_set i y r : roomy r -> exists d, set_at ["params"; i] y (JObj (g_doc r)) = Some (JObj d).
Proof. intros R. apply (roomy_way i) in R. destruct (set_at_some _ y _ R) as (x & S). rewrite S. cbn [set_at] in S. destruct (match find_member "params" (g_doc r) with Some p => p | None => JObj [] end); try discriminate. injection S as <-. eauto. Qed.
Lemma grown_roomy i y r r' : grown i y r r' -> roomy r'.
Proof. intros (d & -> & S). apply (roomy_way i). intros q t z E N L. destruct (set_at_above _ _ _ _ q t S E N) as (l & X). cbn [g_doc with_doc] in L. rewrite X in L. injection L as <-. eexists. reflexivity. Qed.
Lemma grown_own i y r r' : grown i y r r' -> own i r' = y. Proof. intros (d & -> & S). unfold own. cbn [g_doc with_doc]. apply (sub_set _ _ _ _ S). Qed.
Lemma grown_holds i y r r' : grown i y r r' -> holds r' [i] y.
Proof. intros (d & -> & S). apply holds_at. cbn [g_doc with_doc]. pose proof (set_at_below _ _ _ _ [] S) as B. exact B. Qed.
Lemma grown_at i y r r' q : grown i y r r' -> at_param r' (i :: q) = at_path q y.
Proof. intros (d & -> & S). unfold at_param. cbn [g_doc with_doc]. exact (set_at_below _ _ _ _ q S). Qed.
Lemma grown_apart i y r r' q : grown i y r r' -> q <> [] -> hd "" q <> i -> at_param r' q = at_param r q.
Proof. intros (d & -> & S) N H. unfold at_param. cbn [g_doc with_doc]. apply (set_at_apart _ _ _ _ _ S). apply apart_cons. destruct q as [|k q]; [congruence|]. apply apart_head. cbn in H. congruence. Qed.
Lemma grown_again i y y' r r1 r2 : grown i y r r1 -> grown i y' r1 r2 -> grown i y' r r2.
Proof. intros (d & -> & S) (d' & -> & S'). exists d'. split; [reflexivity|]. cbn [g_doc with_doc] in S'. rewrite (set_at_twice _ _ _ _ _ S) in S'. exact S'. Qed.
Lemma grown_keeps i y r r' : grown i y r r' -> g_type r' = g_type r /\ g_val r' = g_val r /\ g_id r' = g_id r. Proof. intros (d & -> & _). repeat split. Qed.

Definition item_name (i : string) (e : item) : string * value := match e with IPut c v => (slashed (i :: c), v) | IPush c n v => (slashed ((i :: c) ++ [append n "[]"]), v) end.
Definition item_ok (i : string) (e : item) : Prop := match e with IPut c v => c <> [] /\ good_path (i :: c) | IPush c n v => good_path ((i :: c) ++ [n]) /\ ~ In (append n "[]") (i :: c) end.
Section Grow.
  Context {S : Type}.
  Lemma cput_grow i e r y (s : S) : item_ok i e -> roomy r -> item_at e (own i r) = Some y -> exists r', cput (fst (item_name i e)) (snd (item_name i e)) s r = (s, r', Ret tt) /\ grown i y r r'.
  Proof.
    intros OK R A. destruct (roomy_set i y r R) as (d & SD). exists (with_doc d r). split; [|exists d; split; [reflexivity|exact SD]]. unfold cput. destruct e as [c v|c n v]; cbn [item_name fst snd item_ok item_at] in *.
    - destruct OK as (N & G). rewrite (set_param_eq _ _ _ G). change ("params" :: i :: c) with (["params"; i] ++ c). rewrite set_at_app. unfold own in A. rewrite A, SD. reflexivity.
    - destruct OK as (G & N). assert (W : way ("params" :: (i :: c) ++ [n]) (JObj (g_doc r))).
      { change ("params" :: (i :: c) ++ [n]) with (["params"; i] ++ (c ++ [n])). apply (set_at_way _ (JArr (elems (sub (c ++ [n]) (own i r)) ++ [set_value v])) _ (JObj d)). rewrite set_at_app. unfold own in *. rewrite A. exact SD. }
      destruct (push_some r (i :: c) n v G N W) as (d' & S' & E). rewrite E. change ("params" :: (i :: c) ++ [n]) with (["params"; i] ++ (c ++ [n])) in S'. rewrite set_at_app in S'. unfold own in A.
      replace (elements (at_param r ((i :: c) ++ [n]))) with (elems (sub (c ++ [n]) (sub ["params"; i] (JObj (g_doc r))))) in S'.
      + rewrite A, SD in S'. injection S' as ->. reflexivity.
      + rewrite <- sub_app. unfold sub, at_param, elements. cbn [app]. destruct (at_path ("params" :: i :: c ++ [n]) (JObj (g_doc r))) as [[]|]; reflexivity.
  Qed.
End Grow.
Section Grows.
  Context {S : Type}.
  Lemma cputs_grow i l : forall r y (s : S), l <> [] -> Forall (item_ok i) l -> roomy r -> grow l (own i r) = Some y -> exists r', cputs (map (item_name i) l) s r = (s, r', Ret tt) /\ grown i y r r'.
  Proof.
    induction l as [|e l IH]; intros r y s N OK R G; [congruence|]. inversion OK as [|? ? O1 O2]; subst. cbn [grow] in G. destruct (item_at e (own i r)) as [z|] eqn:A; [|discriminate]. destruct (cput_grow i e r z s O1 R A) as (r1 & P & GR).
    cbn [map cputs]. destruct (item_name i e) as (n, v). cbn [fst snd] in P. unfold cseq. rewrite P. destruct l as [|e' l].
    - injection G as ->. exists r1. split; [reflexivity|exact GR].
    - destruct (IH r1 y s ltac:(discriminate) O2 (grown_roomy _ _ _ _ GR)) as (r2 & P2 & GR2); [rewrite (grown_own _ _ _ _ GR); exact G|]. exists r2. split; [exact P2|exact (grown_again _ _ _ _ _ _ GR GR2)].
  Qed.
  Lemma cputs_app a b (s : S) r : cputs (a ++ b) s r = cseq (cputs a) (fun _ => cputs b) s r.
  Proof. revert s r. induction a as [|(n, v) a IH]; intros s r; [reflexivity|]. cbn. unfold cseq. destruct (cput n v s r) as [[s1 r1] [ | |]]; try reflexivity. rewrite IH. reflexivity. Qed.
End Grows.
