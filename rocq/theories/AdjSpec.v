(** Sums of pixels and adjustments of parameters, without the loops of the model. *)
From Coq Require Import String.
From Verif Require Import Base StrOrder FrameModel JsonModel JsonSpec AdjModel GapSpec.
Local Open Scope string_scope.
Local Open Scope list_scope.
Local Open Scope Z_scope.

(** The value of pixel [i] of an image of unsigned integers of [es] bytes *)
Definition pixel_value (es : nat) (bytes : list Z) (i : nat) : Z := total (map (fun k => nth (i * es + k) bytes 0 * 256 ^ Z.of_nat k) (seq 0 es)).
Definition pixel_sum (es n : nat) (bytes : list Z) : Z := total (map (pixel_value es bytes) (seq 0 n)).

(** Everything but the parameters *)
Definition same_but_params (a b : meta) : Prop :=
  md_number a = md_number b /\ md_dataset a = md_dataset b /\ md_type a = md_type b /\ md_acq a = md_acq b /\ md_dims a = md_dims b /\ md_compr a = md_compr b /\ md_offset a = md_offset b.

(** The input configured for an adjusted parameter *)
Definition no_input (a : adj) (p : string) : Prop := sm_get (ad_inputs a) p = None \/ sm_get (ad_inputs a) p = Some "".
Definition input_is (a : adj) (p i : string) : Prop := sm_get (ad_inputs a) p = Some i /\ i <> "".
(** What parameter [q] shall be after the adjustments, from the frame as it came *)
Inductive adjusted (a : adj) (m : meta) : string -> option anyv -> Prop :=
| ad_keep q : sm_get (ad_adjustments a) q = None -> adjusted a m q (sm_get (md_params m) q)
| ad_number p v : sm_get (ad_adjustments a) p = Some v -> no_input a p -> adjusted a m p (Some (AU64 ((md_number m + v) mod 2 ^ 64)))
| ad_input p v i x : sm_get (ad_adjustments a) p = Some v -> input_is a p i -> sm_get (md_params m) i = Some (AU64 x) -> adjusted a m p (Some (AU64 ((x + v) mod 2 ^ 64)))
| ad_without p v i : sm_get (ad_adjustments a) p = Some v -> input_is a p i -> (forall x, sm_get (md_params m) i <> Some (AU64 x)) -> adjusted a m p (sm_get (md_params m) p).
(** Which errors: an input is missing, or is not a number *)
Inductive complains (a : adj) (m : meta) : aerr -> Prop :=
| co_missing p v i : sm_get (ad_adjustments a) p = Some v -> input_is a p i -> sm_get (md_params m) i = None -> complains a m (NoInput i)
| co_type p v i y : sm_get (ad_adjustments a) p = Some v -> input_is a p i -> sm_get (md_params m) i = Some y -> (forall x, y <> AU64 x) -> complains a m (NotSet p).

(** One row of a configuration: the adjustment and the input *)
Record row_of (x : json) (v : Z) (i : option string) : Prop := RowOf {
  ro_adj : leads ["adjustment"] x (JInt v) /\ - 2 ^ 63 <= v < 2 ^ 63;
  ro_in : match i with Some s => leads ["input"] x (JStr s) /\ no_nul s | None => forall y, ~ leads ["input"] x y end }.
