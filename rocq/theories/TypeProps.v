(** C46: names and sizes of data types and compressions. *)
From Coq Require Import String.
From Verif Require Import Base StrOrder FrameModel.
Local Open Scope string_scope.
Local Open Scope list_scope.

(** The interface: code, name and bytes per value. *)
Inductive type_row : Z -> string -> option Z -> Prop :=
| ty_unknown : type_row 0 "unknown" None | ty_u8 : type_row 1 "uint8" (Some 1%Z) | ty_u16 : type_row 2 "uint16" (Some 2%Z) | ty_u32 : type_row 3 "uint32" (Some 4%Z) | ty_u64 : type_row 4 "uint64" (Some 8%Z) | ty_float : type_row 5 "float" (Some 4%Z).
Inductive compression_row : Z -> string -> Prop :=
| co_unknown : compression_row 0 "unknown" | co_none : compression_row 1 "none" | co_lz4 : compression_row 2 "LZ4" | co_bslz4 : compression_row 3 "BSLZ4" | co_blosc : compression_row 4 "blosc".

Lemma codes6 t : (0 <= t < 6)%Z -> t = 0%Z \/ t = 1%Z \/ t = 2%Z \/ t = 3%Z \/ t = 4%Z \/ t = 5%Z. Proof. lia. Qed.
Lemma codes5 t : (0 <= t < 5)%Z -> t = 0%Z \/ t = 1%Z \/ t = 2%Z \/ t = 3%Z \/ t = 4%Z. Proof. lia. Qed.

(** A name and a code of a row are translated into each other; other codes give "unknown", other names the unknown code. *)
Theorem c46_types t s : (forall b, type_row t s b -> get_type_from_enum t = s /\ get_type_from_string s = t) /\
  ((forall n b, ~ type_row t n b) -> get_type_from_enum t = "unknown") /\ ((forall c b, ~ type_row c s b) -> get_type_from_string s = 0%Z).
Proof.
  split; [intros b H; inversion H; subst; split; reflexivity|]. split.
  - intros H. unfold get_type_from_enum. destruct ((0 <=? t) && (t <? 6))%Z eqn:E; [|reflexivity]. exfalso. rewrite andb_true_iff, Z.leb_le, Z.ltb_lt in E. destruct (codes6 t E) as [->|[->|[->|[->|[->| ->]]]]]; eapply H; constructor.
  - intros H. unfold get_type_from_string. repeat match goal with |- context [String.eqb s ?n] => destruct (String.eqb_spec s n) as [->|?]; [exfalso; eapply H; constructor|] end. reflexivity.
Qed.
Theorem c46_sizes t n : get_size_from_enum t = Ret n <-> exists s, type_row t s (Some n).
Proof.
  split; [|intros (s & H); inversion H; reflexivity]. unfold get_size_from_enum.
  destruct (Z.eqb_spec t raw_8bit) as [->|]; [intros H; injection H as <-; eexists; constructor|]. destruct (Z.eqb_spec t raw_16bit) as [->|]; [intros H; injection H as <-; eexists; constructor|].
  destruct (Z.eqb_spec t raw_32bit) as [->|]; [intros H; injection H as <-; eexists; constructor|]. destruct (Z.eqb_spec t raw_64bit) as [->|]; [intros H; injection H as <-; eexists; constructor|].
  destruct (Z.eqb_spec t raw_float) as [->|]; [intros H; injection H as <-; eexists; constructor|discriminate].
Qed.
Theorem c46_compressions c s : (compression_row c s -> get_compress_from_enum c = s /\ get_compression_from_string s = c) /\
  ((forall n, ~ compression_row c n) -> get_compress_from_enum c = "unknown") /\ ((forall k, ~ compression_row k s) -> get_compression_from_string s = 0%Z).
Proof.
  split; [intros H; inversion H; subst; split; reflexivity|]. split.
  - intros H. unfold get_compress_from_enum. destruct ((0 <=? c) && (c <? 5))%Z eqn:E; [|reflexivity]. exfalso. rewrite andb_true_iff, Z.leb_le, Z.ltb_lt in E. destruct (codes5 c E) as [->|[->|[->|[->| ->]]]]; eapply H; constructor.
  - intros H. unfold get_compression_from_string. repeat match goal with |- context [String.eqb s ?n] => destruct (String.eqb_spec s n) as [->|?]; [exfalso; eapply H; constructor|] end. reflexivity.
Qed.
(** Names of distinct codes are distinct. *)
Theorem c46_distinct t t' : (0 <= t < 6 -> 0 <= t' < 6 -> get_type_from_enum t = get_type_from_enum t' -> t = t')%Z /\ (0 <= t < 5 -> 0 <= t' < 5 -> get_compress_from_enum t = get_compress_from_enum t' -> t = t')%Z.
Proof.
  split; intros H H' E.
  - destruct (codes6 t H) as [->|[->|[->|[->|[->| ->]]]]]; destruct (codes6 t' H') as [->|[->|[->|[->|[->| ->]]]]]; try reflexivity; discriminate E.
  - destruct (codes5 t H) as [->|[->|[->|[->| ->]]]]; destruct (codes5 t' H') as [->|[->|[->|[->| ->]]]]; try reflexivity; discriminate E.
Qed.
Example c46_case : get_type_from_string "uint64" = 4%Z /\ get_type_from_string "int64" = 0%Z /\ get_size_from_enum 4 = Ret 8%Z /\ get_size_from_enum 0 = Throw RuntimeError /\ get_compress_from_enum 7 = "unknown".
Proof. repeat split. Qed.

Print Assumptions c46_types.
Print Assumptions c46_sizes.
Print Assumptions c46_compressions.
Print Assumptions c46_distinct.
