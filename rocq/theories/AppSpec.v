(** What a configuration file of the frame processor shall do. *)
From Coq Require Import String Ascii.
From Verif Require Import Base StrOrder JsonModel JsonSpec PrcModel PrcSpec AppModel.
Local Open Scope string_scope.
Local Open Scope list_scope.
Local Open Scope Z_scope.

Section Spec.
  Context {P : Type}.
  (** The controller has refused: its reply has no destination. *)
  Definition refused (s s1 : prc P) : Prop := exists l d, p_out s1 = p_out s ++ l ++ [FNobody d].
  (** A client sends the texts one after the other, whether they are accepted or refused, but not when it was not understood; in the end: it was understood always. *)
  Inductive submits (v : env P) (n : nat) (c : string) : list (list ascii) -> prc P -> prc P -> bool -> Prop :=
  | su_end s : submits v n c [] s s true
  | su_next t r s s1 o s2 b : handle_ctrl v n c t s = (s1, o) -> answered c s s1 \/ refused s s1 -> submits v n c r s1 s2 b -> submits v n c (t :: r) s s2 b
  | su_stop t r s s1 o : handle_ctrl v n c t s = (s1, o) -> ~ answered c s s1 -> ~ refused s s1 -> submits v n c (t :: r) s s1 false.
  (** Nobody got a reply. *)
  Definition silent (s s1 : prc P) : Prop := exists l, p_out s1 = p_out s ++ l /\ forall e, In e l -> is_reply e = false.
End Spec.

(** Line ends before a position *)
Definition lines_before (l : list ascii) (p : nat) : nat := count_occ ascii_dec (firstn p l) "010"%char.
(** [t] is the text from [a] to [b]. *)
Definition part_of_text (l : list ascii) (a b : nat) (t : list ascii) : Prop := exists x y, l = x ++ t ++ y /\ List.length x = a /\ List.length (x ++ t) = b.
