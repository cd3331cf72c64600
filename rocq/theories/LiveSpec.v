(** What a live view shall send, from the history of the frames. *)
From Coq Require Import String Ascii DecimalString.
From Verif Require Import Base StrOrder FrameModel JsonModel JsonSpec LiveModel GapSpec.
Local Open Scope string_scope.
Local Open Scope list_scope.
Local Open Scope Z_scope.

(** [n] elements of [l] have the property. *)
Inductive counts {A} (P : A -> Prop) : list A -> nat -> Prop :=
| cn_nil : counts P [] 0
| cn_yes a l n : P a -> counts P l n -> counts P (a :: l) (S n)
| cn_no a l n : ~ P a -> counts P l n -> counts P (a :: l) n.

Definition entry := (event * option packet * list frame)%type.
Definition e_frame (x : entry) : frame := fst (fst (fst (fst x))).
Definition e_t1 (x : entry) : Z := snd (fst (fst (fst x))).
Definition e_t2 (x : entry) : Z := snd (fst (fst x)).
Definition e_sent (x : entry) : option packet := snd (fst x).
Definition e_pushed (x : entry) : list frame := snd x.
Definition sent (x : entry) : Prop := exists k, e_sent x = Some k.
Definition dataset (f : frame) : string := md_dataset (fr_meta f).

(** The frame passes the filters: [names] of datasets and [tags], each without effect if empty. *)
Definition passes (names tags : list string) (f : frame) : Prop :=
  (names = [] \/ In (dataset f) names) /\ (tags = [] \/ exists t v, In t tags /\ sm_get (md_params (fr_meta f)) t = Some v).
(** The frames counted together with [f]: those of its dataset if there is a list of datasets, else all. *)
Definition together (names tags : list string) (f g : frame) : Prop := passes names tags g /\ (names = [] \/ dataset g = dataset f).
(** More than [gap] microseconds since the last frame sent, or since [start] *)
Definition late (gap start : Z) (before : list entry) (t1 : Z) : Prop :=
  (exists a y b, before = a ++ y :: b /\ sent y /\ (forall z, In z b -> ~ sent z) /\ gap < t1 - e_t2 y) \/ ((forall z, In z before -> ~ sent z) /\ gap < t1 - start).
(** Frame [x] after the frames [before], of which [first] were counted earlier *)
Definition shall_send (freq per_second start : Z) (first : Z) (names tags : list string) (before : list entry) (x : entry) : Prop :=
  passes names tags (e_frame x) /\
  ((freq <> 0 /\ exists k, counts (fun y => together names tags (e_frame x) (e_frame y)) before k /\ (freq | first + Z.of_nat k)) \/ (per_second <> 0 /\ late (1000 * Z.quot 1000 per_second) start before (e_t1 x))).

(** A string of decimal digits (read by the standard library) for a number *)
Definition is_decimal (d : Z) (x : json) : Prop := 0 <= d -> exists s u, x = JStr s /\ NilZero.uint_of_string s = Some u /\ Z.of_N (N.of_uint u) = d.
(** The tags among [tags] that the frame has, in the same order *)
Inductive kept (f : frame) : list string -> list json -> Prop :=
| kt_nil : kept f [] []
| kt_yes t v r l : sm_get (md_params (fr_meta f)) t = Some v -> kept f r l -> kept f (t :: r) (JStr t :: l)
| kt_no t r l : sm_get (md_params (fr_meta f)) t = None -> kept f r l -> kept f (t :: r) l.
(** What is sent of a frame *)
Record shows (tags : list string) (f : frame) (k : packet) : Prop := Shows {
  sh_bytes : pk_bytes k = firstn (Z.to_nat (fr_image_size f)) (image f);
  sh_number : leads ["frame_num"] (JObj (pk_header k)) (JInt (md_number (fr_meta f) mod 2 ^ 32));
  sh_acq : no_nul (md_acq (fr_meta f)) -> leads ["acquisition_id"] (JObj (pk_header k)) (JStr (md_acq (fr_meta f)));
  sh_dataset : no_nul (md_dataset (fr_meta f)) -> leads ["dataset"] (JObj (pk_header k)) (JStr (md_dataset (fr_meta f)));
  sh_type : exists s, leads ["dtype"] (JObj (pk_header k)) (JStr s) /\ (0 <= md_type (fr_meta f) <= 5 -> get_type_from_string s = md_type (fr_meta f));
  sh_compr : exists s, leads ["compression"] (JObj (pk_header k)) (JStr s) /\ (0 <= md_compr (fr_meta f) <= 4 -> get_compression_from_string s = md_compr (fr_meta f));
  sh_size : leads ["dsize"] (JObj (pk_header k)) (JInt (Z.of_nat (List.length (pk_bytes k))));
  sh_shape : exists l, leads ["shape"] (JObj (pk_header k)) (JArr l) /\ Forall2 is_decimal (md_dims (fr_meta f)) l;
  sh_no_tags : tags = [] -> forall x, ~ leads ["tags"] (JObj (pk_header k)) x;
  sh_tags : tags <> [] -> Forall no_nul tags -> exists l, leads ["tags"] (JObj (pk_header k)) (JArr l) /\ kept f tags l }.
(** The socket is bound where the live view says, and nowhere else. *)
Definition socket_ok (p : live) : Prop := if lv_bound p then lv_endpoints p = [(lv_addr p, tt)] else lv_endpoints p = [].

(** The image lies in the memory of the frame. *)
Definition in_memory (f : frame) : Prop := 0 <= fr_image_offset f /\ 0 <= fr_image_size f < 2 ^ 31 /\ fr_image_offset f + fr_image_size f <= Z.of_nat (List.length (fr_mem f)).

(** Lists in text: parts separated by commas, each without white space around *)
Fixpoint joined (d : string) (parts : list string) : string := match parts with [] => "" | [p] => p | p :: r => append p (append d (joined d r)) end.
Definition is_blank (c : ascii) : Prop := c = " "%char \/ (9 <= nat_of_ascii c <= 13)%nat.
Definition all_blank (s : string) : Prop := Forall is_blank (chars s).
Definition trimmed (s t : string) : Prop := exists a b, s = append a (append t b) /\ all_blank a /\ all_blank b /\ (forall c r, chars t = c :: r -> ~ is_blank c) /\ (forall c r, chars t = r ++ [c] -> ~ is_blank c).
Definition no_comma (s : string) : Prop := ~ In ","%char (chars s).
(** The message gives the setting, or does not. *)
Definition given (c : msg) (name : string) (x : option json) : Prop := match x with Some v => holds c [name] v | None => (exists l, holds c [] (JObj l)) /\ forall v, ~ holds c [name] v end.
