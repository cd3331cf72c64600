(** Property C35, continued: messages made by the constructors. *)
From Coq Require Import String.
From Verif Require Import Base JsonModel.
Local Open Scope string_scope.
Local Open Scope list_scope.

(** C35: a message made from a type, a value and params can be encoded: it says its type and value, the id 0, the time it was made and
    the params; made without params it has an empty object. *)
Theorem c35_made : forall c x t v strict now, exists doc, encode c (msg_of_value x t v strict now) = Ret doc
  /\ find_member "id" doc = Some (JInt 0) /\ find_member "params" doc = Some x
  /\ find_member "msg_type" doc = Some (JStr (name_of_type t)) /\ find_member "msg_val" doc = Some (JStr (name_of_val v))
  /\ find_member "timestamp" doc = Some (JStr (cstr (time_text c (Some now))))
  /\ List.map fst doc = ["params"; "msg_type"; "msg_val"; "id"; "timestamp"]
  /\ encode c (new_msg t v strict now) = encode c (msg_of_value (JObj []) t v strict now).
Proof. intros. eexists. split; [reflexivity|]. repeat split. Qed.
Print Assumptions c35_made.

Example c35_made_case : forall c, exists doc, encode c (new_msg TCmd VConfigure true 5) = Ret doc /\ find_member "msg_val" doc = Some (JStr "configure").
Proof. intros c. eexists. split; reflexivity. Qed.
