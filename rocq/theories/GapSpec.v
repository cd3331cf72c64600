(** Chips with gaps between them, without the loops of the model. *)
From Verif Require Import Base FrameModel.
Local Open Scope Z_scope.

Definition total (l : list Z) : Z := fold_right Z.add 0 l.
(** Where row (or column) [r] of the source goes: beyond the gaps up to and including that before its chip. *)
Definition placed (chip : Z) (gaps : list Z) (r : Z) : Z := r + total (firstn (S (Z.to_nat (r / chip))) gaps).
(** Pixel (y, x) of an image of bytes: [es] bytes each, rows of [w] pixels. *)
Definition pixel (es w : Z) (bytes : list Z) (y x : Z) : list Z := firstn (Z.to_nat es) (skipn (Z.to_nat ((y * w + x) * es)) bytes).
Definition black (es : Z) : list Z := repeat 0 (Z.to_nat es).
(** The image of a frame *)
Definition image (f : frame) : list Z := skipn (Z.to_nat (fr_image_offset f)) (fr_mem f).
(** The sizes of a value of a type in bytes *)
Inductive bytes_of : Z -> Z -> Prop := by8 : bytes_of raw_8bit 1 | by16 : bytes_of raw_16bit 2 | by32 : bytes_of raw_32bit 4 | by64 : bytes_of raw_64bit 8 | byf : bytes_of raw_float 4.
