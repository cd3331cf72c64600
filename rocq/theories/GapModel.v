(** Gap filling.  frameProcessor/src/GapFillPlugin.cpp *)
From Verif Require Import Base FrameModel.
Local Open Scope Z_scope.

(** grid_, chip_, gaps_x_, gaps_y_ (vectors of int) *)
Record gap := Gap { gp_grid : list Z; gp_chip : list Z; gp_x : list Z; gp_y : list Z }.

Notation "'do' x <- e ; k" := (obind e (fun x => k)) (at level 200, x pattern, e at level 100, k at level 200, right associativity).
(** operator[] of a vector: undefined outside *)
Definition at_ (l : list Z) (i : Z) : outcome fexc Z := if (0 <=? i) && (i <? Z.of_nat (length l)) then Ret (nth (Z.to_nat i) l 0) else Undef.
(** Arithmetic of int: overflow is undefined. *)
Definition int_ (z : Z) : outcome fexc Z := if in_i32 z then Ret z else Undef.
(** Conversion to an unsigned 64 bit type *)
Definition to_u64 (z : Z) : Z := z mod 2 ^ 64.

(** configuration_valid, lines 63-114.  The dimensions are unsigned long long.  [Ret false]: an error is set. *)
Definition configuration_valid (g : gap) (f : frame) : outcome fexc bool :=
  let dims := md_dims (fr_meta f) in
  do d0 <- at_ dims 0; do g0 <- at_ (gp_grid g) 0; do c0 <- at_ (gp_chip g) 0; do p0 <- int_ (g0 * c0);
  if negb (d0 =? to_u64 p0) then Ret false else
  do d1 <- at_ dims 1; do g1 <- at_ (gp_grid g) 1; do c1 <- at_ (gp_chip g) 1; do p1 <- int_ (g1 * c1);
  if negb (d1 =? to_u64 p1) then Ret false else
  do n1 <- int_ (g1 + 1); do n0 <- int_ (g0 + 1);
  let sx := Z.of_nat (length (gp_x g)) in let sy := Z.of_nat (length (gp_y g)) in
  Ret (negb (to_u64 n1 >? sx) && negb (to_u64 n0 >? sy) && negb (to_u64 n1 <? sx) && negb (to_u64 n0 <? sy)).

(** for (int i = [i]; ...; i++), [n] times *)
Fixpoint loop {S} (i : Z) (n : nat) (body : Z -> S -> outcome fexc S) (s : S) : outcome fexc S :=
  match n with O => Ret s | Datatypes.S k => do s1 <- body i s; loop (i + 1) k body s1 end.

(** memcpy into the new image: undefined outside of it *)
Definition blit (dst : list Z) (off : Z) (src : list Z) : list Z := firstn (Z.to_nat off) dst ++ src ++ skipn (Z.to_nat off + length src) dst.
Definition write_at (dst : list Z) (off : Z) (src : list Z) : outcome fexc (list Z) :=
  if (0 <=? off) && (off + Z.of_nat (length src) <=? Z.of_nat (length dst)) then Ret (blit dst off src) else Undef.

(** The copy of one row of one chip, lines 155-176.  [es]: frame_data_type_size, a size_t.  src_offset is computed as unsigned long
    long and stored in an int; both offsets are multiplied as size_t and stored in an int. *)
Definition copy_row (g : gap) (f : frame) (es img_x d1 c1 src_row dest_row x : Z) (st : Z * list Z) : outcome fexc (Z * list Z) :=
  let '(off_x, img) := st in
  do gx <- at_ (gp_x g) x; do off_x <- int_ (off_x + gx);
  do xc <- int_ (x * c1);
  let src_offset := i32 (i32 (src_row * d1 + xc) * es) in
  do a <- int_ (dest_row * img_x); do b <- int_ (a + off_x); do d <- int_ (b + xc);
  let dest_offset := i32 (d * es) in
  do row <- read_image f src_offset (to_u64 (c1 * es));
  do img' <- write_at img dest_offset row;
  Ret (off_x, img').
(** The rows of a chip row, lines 148-179 *)
Definition copy_chip_row (g : gap) (f : frame) (es img_x d1 c0 c1 g1 off_y y row : Z) (img : list Z) : outcome fexc (list Z) :=
  do yc <- int_ (y * c0); do src_row <- int_ (yc + row); do dest_row <- int_ (src_row + off_y);
  do r <- loop 0 (Z.to_nat g1) (copy_row g f es img_x d1 c1 src_row dest_row) (0, img);
  Ret (snd r).
Definition copy_chips (g : gap) (f : frame) (es img_x d1 c0 c1 g1 y : Z) (st : Z * list Z) : outcome fexc (Z * list Z) :=
  let '(off_y, img) := st in
  do gy <- at_ (gp_y g) y; do off_y <- int_ (off_y + gy);
  do img' <- loop 0 (Z.to_nat c0) (copy_chip_row g f es img_x d1 c0 c1 g1 off_y y) img;
  Ret (off_y, img').
(** The sum of the gaps, lines 131-139 *)
Definition add_gap (l : list Z) (i s : Z) : outcome fexc Z := do v <- at_ l i; int_ (s + v).
(** malloc gives memory if at most [mem] bytes are asked for; memset of a null pointer is undefined. *)
Definition zeros (mem n : Z) : outcome fexc (list Z) := if n <=? mem then Ret (repeat 0 (Z.to_nat n)) else Undef.
(** insert_gaps, lines 125-197 *)
Definition insert_gaps (mem : Z) (g : gap) (f : frame) : outcome fexc frame :=
  do g0 <- at_ (gp_grid g) 0; do g1 <- at_ (gp_grid g) 1; do c0 <- at_ (gp_chip g) 0; do c1 <- at_ (gp_chip g) 1;
  do w <- int_ (g1 * c1); do img_x <- loop 0 (Z.to_nat (g1 + 1)) (add_gap (gp_x g)) w;
  do h <- int_ (g0 * c0); do img_y <- loop 0 (Z.to_nat (g0 + 1)) (add_gap (gp_y g)) h;
  do es <- get_size_from_enum (md_type (fr_meta f));
  do n <- int_ (img_x * img_y);
  do img <- zeros mem (to_u64 (n * es));
  do d1 <- at_ (md_dims (fr_meta f)) 1;
  do st <- loop 0 (Z.to_nat g0) (copy_chips g f es img_x d1 c0 c1 g1) (0, img);
  Ret (new_frame (set_dims [to_u64 img_y; to_u64 img_x] (fr_meta f)) (snd st) (to_u64 (n * es)) 0).
(** process_frame, lines 41-52: the frames pushed, and whether an error is set *)
Definition gap_process (mem : Z) (g : gap) (f : frame) : outcome fexc (list frame * bool) :=
  do v <- configuration_valid g f;
  if v then do f' <- insert_gaps mem g f; do out <- push f'; Ret (out, false) else Ret ([], true).
