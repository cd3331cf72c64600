(** Which class a name stands for. *)
From Coq Require Import String.
From Verif Require Import Base ClsModel.
Local Open Scope list_scope.

(** [k] is registered under [n] in [l] and nothing is registered under it afterwards. *)
Definition latest (n : string) (k : maker) (l : list (string * maker)) : Prop :=
  exists a b, l = a ++ (n, k) :: b /\ ~ In n (map fst b).

(** What is registered by libraries opened in this order. *)
Definition registrations (L : libraries) (ps : list string) : list (string * maker) :=
  flat_map (fun p => match L p with Some regs => regs | None => [] end) ps.

Definition result (k : maker) : loaded :=
  match k with Makes c => Object c | ThrowsStd => Null | ThrowsOther => Thrown end.

(** No two libraries register the same name. *)
Definition separate (L : libraries) : Prop := forall p q l m n,
  L p = Some l -> L q = Some m -> In n (map fst l) -> In n (map fst m) -> p = q.
