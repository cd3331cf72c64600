(** What users of data blocks and frames expect. *)
From Verif Require Import Base PoolModel.
Local Open Scope N_scope.

(** Histories of a pool: [held] are the blocks handed out and not yet given back; only such blocks are released. *)
Inductive history (junk : N -> N -> N) : gl -> list N -> Prop :=
| h_init : history junk (gl_init junk) []
| h_allocate g held c k : history junk g held -> history junk (allocate c k k g) held
| h_take g held k g' i : history junk g held -> take k g = (g', Ret (Some i)) -> history junk g' (i :: held)
| h_release g held i g' r : history junk g held -> In i held -> release i g = (g', r) ->
    history junk g' (filter (fun j => negb (j =? i)) held)
| h_write g held i src n g' r : history junk g held -> In i held -> copy_data i src n g = (g', r) -> history junk g' held.

Definition size_is (g : gl) (k i : N) : bool := match g_blocks g i with Some b => b_size b =? k | None => false end.
(** Indexes of all blocks ever made. *)
Definition all_blocks (g : gl) : list N := map N.of_nat (seq 0 (N.to_nat (g_next g))).

(** Frames as values: a size and contents. *)
Definition vals := N -> option (N * (N -> N)).
Definition same (v v' : vals) : Prop := forall f, v f = v' f.

(** What an operation should do to the values.  The contents of an empty frame are not known. *)
Inductive vstep : fop -> vals -> vals -> Prop :=
| v_new f src size v : vstep (FNew f src size) v (upd v f (Some (size, src)))
| v_empty f size v c : vstep (FEmpty f size) v (upd v f (Some (size, c)))
| v_assign f from v x : v from = Some x -> vstep (FAssign f from) v (upd v f (Some x))
| v_write f o x v size c : v f = Some (size, c) -> o < size -> vstep (FWrite f o x) v (upd v f (Some (size, upd c o x)))
| v_write_out f o x v size c : v f = Some (size, c) -> size <= o -> vstep (FWrite f o x) v v
| v_resize f n v size c : v f = Some (size, c) -> n <= size -> vstep (FResize f n) v (upd v f (Some (n, c)))
| v_resize_refused f n v size c : v f = Some (size, c) -> size < n -> vstep (FResize f n) v v
| v_destroy f v : vstep (FDestroy f) v (upd v f None)
| v_allocate c size v : vstep (FAllocate c size) v v.
Inductive vrun : vals -> list fop -> vals -> Prop :=
| vr_nil v : vrun v [] v
| vr_cons o l v v' v'' : vstep o v v' -> vrun v' l v'' -> vrun v (o :: l) v''.

(** Programs that create a name once, use living frames only, do not use the copy constructor, and assign only between
    different frames of the same size.  [sz]: sizes of the living frames. *)
Fixpoint proper (sz : N -> option N) (l : list fop) : Prop :=
  match l with
  | [] => True
  | o :: t =>
    match o with
    | FNew f _ size | FEmpty f size => sz f = None /\ proper (upd sz f (Some size)) t
    | FCopy _ _ _ => False
    | FAssign f from => f <> from /\ (exists s, sz f = Some s /\ sz from = Some s) /\ proper sz t
    | FWrite f _ _ => sz f <> None /\ proper sz t
    | FResize f n => exists s, sz f = Some s /\ proper (if s <? n then sz else upd sz f (Some n)) t
    | FDestroy f => sz f <> None /\ proper (upd sz f None) t
    | FAllocate _ _ => proper sz t
    end
  end.

(** The frames of the machine have these values: same living frames, sizes as reported by get_data_size, same bytes, and
    the bytes are inside the block. *)
Definition shows (m : mach) (v : vals) : Prop := forall f,
  match m_frames m f, v f with
  | None, None => True
  | Some x, Some (size, c) =>
      d_size x = size /\ exists b, g_blocks (m_gl m) (d_block x) = Some b /\ size <= b_size b /\ forall o, o < size -> b_mem b o = c o
  | _, _ => False
  end.

Definition mach_init (junk : N -> N -> N) : mach := Mach (gl_init junk) (fun _ => None).
