(** Compression settings from the history. *)
From Coq Require Import String.
From Verif Require Import Base StrOrder FrameModel JsonModel JsonSpec LiveSpec BloscModel.
Local Open Scope string_scope.
Local Open Scope list_scope.
Local Open Scope Z_scope.

(** What is taken for a value asked for *)
Inductive level_for : Z -> Z -> Prop := lf_low v : v < 1 -> level_for v 1 | lf_in v : 1 <= v <= 9 -> level_for v v | lf_high v : 9 < v -> level_for v 9.
Inductive within (max other : Z) : Z -> Z -> Prop := wi_in v : 0 <= v <= max -> within max other v v | wi_out v : max < v -> within max other v other.
(** A setting after a message: as given by the message, else as before *)
Definition taken (c : msg) (name : string) (ok : Z -> Prop) (rel : Z -> Z -> Prop) (before after : Z) : Prop :=
  (exists v, given c name (Some (JInt v)) /\ ok v /\ rel v after) \/ (given c name None /\ after = before).
Record configures (c : msg) (s s' : settings) : Prop := Configures {
  cf_level : taken c "level" (fun v => - 2 ^ 31 <= v < 2 ^ 31) level_for (bs_level s) (bs_level s');
  cf_shuffle : taken c "shuffle" (fun v => 0 <= v < 2 ^ 32) (within 2 0) (bs_shuffle s) (bs_shuffle s');
  cf_threads : taken c "threads" (fun v => 0 <= v < 2 ^ 32) (within 256 8) (bs_threads s) (bs_threads s');
  cf_compressor : taken c "compressor" (fun v => 0 <= v < 2 ^ 32) (within 5 1) (bs_compressor s) (bs_compressor s') }.
(** The settings commanded after a history of well typed configurations *)
Inductive commanded : list bevent -> settings -> Prop :=
| cm_start : commanded [] (Settings 1 2 1 1)
| cm_frame h f s : commanded h s -> commanded (h ++ [BFrame f]) s
| cm_config h c s s' : commanded h s -> configures c s s' -> commanded (h ++ [BConfig c]) s'.
Definition acquisition (f : frame) : string := md_acq (fr_meta f).
(** The last frame, if any, is not of acquisition [a]. *)
Definition starts_after (h : list bevent) (a : string) : Prop := forall h1 f h2, h = h1 ++ BFrame f :: h2 -> (forall g, ~ In (BFrame g) h2) -> acquisition f <> a.
(** After [h], a frame of acquisition [a] belongs to the run that started after [h1]: there came frames of [a] only, at least one. *)
Definition run_of (h1 h : list bevent) (a : string) : Prop := exists f h2, h = h1 ++ BFrame f :: h2 /\ starts_after h1 a /\ acquisition f = a /\ forall g, In (BFrame g) h2 -> acquisition g = a.
(** The frames of [a] up to now started after [h1]. *)
Definition began (h1 h : list bevent) (a : string) : Prop := (h1 = h /\ starts_after h a) \/ run_of h1 h a.
(** A frame with [out] as compressed image, all else as before *)
Record compressed_as (f f' : frame) (out : list Z) : Prop := CompressedAs {
  ca_meta : fr_meta f' = set_compr blosc (fr_meta f);
  ca_size : fr_image_size f' = Z.of_nat (List.length out);
  ca_bytes : firstn (List.length out) (skipn (Z.to_nat (fr_image_offset f')) (fr_mem f')) = out;
  ca_offset : 0 <= fr_image_offset f';
  ca_chunk : fr_chunk f' = fr_chunk f }.
