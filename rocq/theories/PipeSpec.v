(** Frames through connected plugins: what is expected. *)
From Verif Require Import Base PipeModel.

(** One plugin alone: what it pushes when called with the items one after the other, and its state after them *)
Definition shown {C} (i1 : item C) (o : out C) : item C * option nat := (match o_what o with Same => i1 | New i => i end, o_to o).
Definition alone {S C} (nt : net S C) (m : nat) (s : S) (i : item C) : S * list (item C * option nat) :=
  match i with
  | Frame c => let '(s1, c1, o) := p_process nt m s c in (s1, map (shown (Frame c1)) o)
  | Eoa => let '(s1, o) := p_finish nt m s in (s1, o ++ [(Eoa, None)])
  end.
Fixpoint after {S C} (nt : net S C) (m : nat) (s : S) (l : list (item C)) : S := match l with [] => s | i :: r => after nt m (fst (alone nt m s i)) r end.
Fixpoint makes {S C} (nt : net S C) (m : nat) (s : S) (l : list (item C)) : list (item C * option nat) := match l with [] => [] | i :: r => snd (alone nt m s i) ++ makes nt m (fst (alone nt m s i)) r end.
(** What of it is for plugin [k] *)
Definition for_k {C} (k : nat) (l : list (item C * option nat)) : list (item C) := map fst (filter (fun p => match snd p with None => true | Some j => Nat.eqb j k end) l).

Definition kids {S C} (nt : net S C) (m : nat) : list nat := p_blocking nt m ++ p_queued nt m.
(** What each plugin is to be called with: the frames for those connected to the frame receiver, what its predecessor makes for the others *)
Inductive expects {S C} (nt : net S C) (frames : list (item C)) : nat -> list (item C) -> Prop :=
| e_root m : In m (p_roots nt) -> expects nt frames m frames
| e_kid p m l : expects nt frames p l -> In m (kids nt p) -> expects nt frames m (for_k m (makes nt p (p_start nt p) l)).

(** Each plugin is connected to one other only. *)
Definition tree {S C} (nt : net S C) : Prop :=
  NoDup (p_roots nt) /\ (forall p, NoDup (kids nt p)) /\ (forall p m, In m (kids nt p) -> ~ In m (p_roots nt)) /\ (forall p p' m, In m (kids nt p) -> In m (kids nt p') -> p = p').
(** Plugins that are connected, directly or not, with [m] *)
Inductive below {S C} (nt : net S C) (m : nat) : nat -> Prop :=
| b_self : below nt m m
| b_kid p k : below nt m p -> In k (kids nt p) -> below nt m k.
(** Neither [m] nor a plugin after it changes frames that it is given. *)
Definition frozen {S C} (nt : net S C) (m : nat) : Prop := forall k, below nt m k -> forall s c, snd (fst (p_process nt k s c)) = c.
Definition sames {C} (l : list (out C)) : nat := length (filter (fun o => match o_what o with Same => true | _ => false end) l).
(** A frame goes to one plugin that may change it, or to several that do not. *)
Definition gentle {S C} (nt : net S C) : Prop :=
  ((forall m, In m (p_roots nt) -> frozen nt m) \/ length (p_roots nt) <= 1) /\
  forall p, (forall m, In m (kids nt p) -> frozen nt m) \/ (length (kids nt p) <= 1 /\ forall s c, sames (snd (p_process nt p s c)) <= 1).
(** [all]: the plugins that are connected with the frame receiver, directly or not *)
Definition finite {S C} (nt : net S C) (all : list nat) : Prop := NoDup all /\ forall m, In m all <-> exists r, In r (p_roots nt) /\ below nt r m.
Definition prefix {A} (a b : list A) : Prop := exists c, b = a ++ c.
