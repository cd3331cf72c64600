(** Data blocks, their pools and the frames that own them
    (frameProcessor/src/DataBlock.cpp, DataBlockPool.cpp, DataBlockFrame.cpp, Frame.cpp). *)
From Verif Require Import Base.
Local Open Scope N_scope.

Definition upd {A} (m : N -> A) (k : N) (v : A) : N -> A := fun x => if x =? k then v else m x.

(** DataBlock.h: allocated_bytes_ and the memory behind block_ptr_ (by offset).  posix_memalign is taken to succeed. *)
Record block := Block { b_size : N; b_mem : N -> N }.

(** DataBlockPool.h members.  Blocks are named by their index.  used_map_ is a set of indexes here.  The counters are
    size_t: decrementing 0 wraps; that they do not exceed 2^64 - 1 blocks is taken for granted.  memory_allocated_ wraps. *)
Record pool := Pool { p_free : list N; p_used : list N; n_free : N; n_used : N; n_total : N; p_mem : N }.
Definition no_pool : pool := Pool [] [] 0 0 0 0.

(** All static state: index_counter_ (DataBlock.cpp; int overflow not modelled), the blocks, instance_map_ (a pool that
    has not been created yet is an empty pool, lines 115-121).  [g_junk]: contents of fresh memory, by block and offset. *)
Record gl := Gl { g_next : N; g_blocks : N -> option block; g_pools : N -> pool; g_junk : N -> N -> N }.
Definition gl_init (junk : N -> N -> N) : gl := Gl 0 (fun _ => None) (fun _ => no_pool) junk.

Definition dec64 (n : N) : N := if n =? 0 then 2 ^ 64 - 1 else n - 1.
Definition add64 (a b : N) : N := (a + b) mod 2 ^ 64.
Definition sub64 (a b : N) : N := (a + 2 ^ 64 - b mod 2 ^ 64) mod 2 ^ 64.

(** DataBlockPool.cpp:154-162: one round of the loop of internal_allocate, on the pool for [k]. *)
Definition alloc1 (k size : N) (g : gl) : gl :=
  let p := g_pools g k in
  let i := g_next g in
  Gl (i + 1) (upd (g_blocks g) i (Some (Block size (g_junk g i))))
     (upd (g_pools g) k (Pool (i :: p_free p) (p_used p) (n_free p + 1) (n_used p) (n_total p + 1) (add64 (p_mem p) size)))
     (g_junk g).

(** DataBlockPool.cpp:145-163 (internal_allocate). *)
Fixpoint allocate (count : nat) (k size : N) (g : gl) : gl :=
  match count with O => g | S c => allocate c k size (alloc1 k size g) end.

Definition set_pool (k : N) (p : pool) (g : gl) : gl := Gl (g_next g) (g_blocks g) (upd (g_pools g) k p) (g_junk g).
Definition set_block (i : N) (b : block) (g : gl) : gl := Gl (g_next g) (upd (g_blocks g) i (Some b)) (g_pools g) (g_junk g).

Definition mem_of (i : N) (l : list N) : bool := existsb (N.eqb i) l.
(** std::map operator[] assignment and erase, as sets of keys. *)
Definition put_key (i : N) (l : list N) : list N := if mem_of i l then l else i :: l.
Definition del_key (i : N) (l : list N) : list N := filter (fun j => negb (j =? i)) l.

(** DataBlockPool.cpp:172-201 (take, internal_take); the pool is the one for [size] (line 43).  The null pointer is
    [None].  DataBlock::resize (DataBlock.cpp:75-92) replaces the memory. *)
Definition take (size : N) (g : gl) : gl * outcome Empty_set (option N) :=
  let p0 := g_pools g size in
  let g1 := if n_free p0 =? 0 then
              if n_total p0 =? 0 then allocate 2 size size g else allocate (N.to_nat (n_total p0)) size size g
            else g in
  let p := g_pools g1 size in
  if 0 <? n_free p then
    match p_free p with
    | [] => (g1, Undef)
    | i :: rest =>
      match g_blocks g1 i with
      | None => (g1, Undef)
      | Some b =>
        let m := if b_size b =? size then p_mem p else add64 (sub64 (p_mem p) (b_size b)) size in
        let g2 := if b_size b =? size then g1 else set_block i (Block size (g_junk g1 i)) g1 in
        (set_pool size (Pool rest (put_key i (p_used p)) (n_free p - 1) (n_used p + 1) (n_total p) m) g2, Ret (Some i))
      end
    end
  else (g1, Ret None).

(** DataBlockPool.cpp:54-57 and 209-222 (release, internal_release): the pool is the one for the size of the block. *)
Definition release (i : N) (g : gl) : gl * outcome Empty_set unit :=
  match g_blocks g i with
  | None => (g, Undef)
  | Some b =>
    let k := b_size b in
    let p := g_pools g k in
    (set_pool k (Pool (i :: p_free p) (del_key i (p_used p)) (n_free p + 1) (dec64 (n_used p)) (n_total p) (p_mem p)) g, Ret tt)
  end.

(** DataBlock.cpp:102-111 (copy_data): bytes beyond the block are left out. *)
Definition copy_data (i : N) (src : N -> N) (n : N) (g : gl) : gl * outcome Empty_set unit :=
  match g_blocks g i with
  | None => (g, Undef)
  | Some b =>
    let n' := if b_size b <? n then b_size b else n in
    (set_block i (Block (b_size b) (fun o => if o <? n' then src o else b_mem b o)) g, Ret tt)
  end.

(** ** Frames *)

(** DataBlockFrame: raw_data_block_ptr_ and data_size_.  Meta data, image offset and size do not matter here. *)
Record dframe := DFrame { d_block : N; d_size : N }.
Record mach := Mach { m_gl : gl; m_frames : N -> option dframe }.

Inductive fop :=
| FNew (f : N) (src : N -> N) (size : N)  (* DataBlockFrame.cpp:13-21: constructor with data *)
| FEmpty (f size : N)                     (* DataBlockFrame.cpp:29-34: constructor without data *)
| FCopy (f from garbage : N)              (* DataBlockFrame.cpp:40-42 and Frame.cpp:24-29: copy constructor; data_size_ is
                                             not initialised: [garbage] *)
| FAssign (f from : N)                    (* DataBlockFrame.cpp:49-57: operator= *)
| FWrite (f o v : N)                      (* a byte is written through get_data_ptr(); o < get_data_size() *)
| FResize (f n : N)                       (* Frame.cpp:83-88: set_data_size *)
| FDestroy (f : N)                        (* DataBlockFrame.cpp:62-64 *)
| FAllocate (count : nat) (size : N).     (* DataBlockPool.cpp:30-33 *)

Definition set_frame (f : N) (x : option dframe) (m : mach) : mach := Mach (m_gl m) (upd (m_frames m) f x).
Definition set_gl (g : gl) (m : mach) : mach := Mach g (m_frames m).

(** Memory of a frame (get_data_ptr). *)
Definition data_of (m : mach) (f : N) : option (N -> N) :=
  match m_frames m f with
  | None => None
  | Some x => match g_blocks (m_gl m) (d_block x) with None => None | Some b => Some (b_mem b) end
  end.

(** One operation; a name that is in use is not created again and only living frames are used (else [Undef]).
    FResize throws if the size would grow; then nothing changes. *)
Definition fstep (o : fop) (m : mach) : mach * outcome Empty_set unit :=
  match o with
  | FNew f src size =>
    match m_frames m f, take size (m_gl m) with
    | None, (g, Ret (Some i)) =>
      let '(g', r) := copy_data i src size g in (set_frame f (Some (DFrame i size)) (set_gl g' m), r)
    | _, (g, _) => (set_gl g m, Undef)
    end
  | FEmpty f size =>
    match m_frames m f, take size (m_gl m) with
    | None, (g, Ret (Some i)) => (set_frame f (Some (DFrame i size)) (set_gl g m), Ret tt)
    | _, (g, _) => (set_gl g m, Undef)
    end
  | FCopy f from garbage =>
    match m_frames m f, m_frames m from with
    | None, Some x => (set_frame f (Some (DFrame (d_block x) garbage)) m, Ret tt)
    | _, _ => (m, Undef)
    end
  | FAssign f from =>
    match m_frames m f, m_frames m from with
    | Some x, Some y =>
      match release (d_block x) (m_gl m) with
      | (g1, Ret _) =>
        match take (d_size y) g1 with
        | (g2, Ret (Some i)) =>
          let m2 := set_frame f (Some (DFrame i (d_size x))) (set_gl g2 m) in
          match data_of m2 from with
          | Some src => let '(g3, r) := copy_data i src (d_size y) g2 in (set_gl g3 m2, r)
          | None => (m2, Undef)
          end
        | (g2, _) => (set_gl g2 m, Undef)
        end
      | (g1, _) => (set_gl g1 m, Undef)
      end
    | _, _ => (m, Undef)
    end
  | FWrite f o v =>
    match m_frames m f with
    | Some x =>
      if o <? d_size x then
        match g_blocks (m_gl m) (d_block x) with
        | Some b => if o <? b_size b then (set_gl (set_block (d_block x) (Block (b_size b) (upd (b_mem b) o v)) (m_gl m)) m, Ret tt)
                    else (m, Undef)
        | None => (m, Undef)
        end
      else (m, Ret tt)
    | None => (m, Undef)
    end
  | FResize f n =>
    match m_frames m f with
    | Some x => if d_size x <? n then (m, Ret tt) else (set_frame f (Some (DFrame (d_block x) n)) m, Ret tt)
    | None => (m, Undef)
    end
  | FDestroy f =>
    match m_frames m f with
    | Some x => let '(g, r) := release (d_block x) (m_gl m) in (set_frame f None (set_gl g m), r)
    | None => (m, Undef)
    end
  | FAllocate c size => (set_gl (allocate c size size (m_gl m)) m, Ret tt)
  end.

Fixpoint frun (m : mach) (l : list fop) : mach * bool :=
  match l with
  | [] => (m, true)
  | o :: t => match fstep o m with (m', Ret _) => frun m' t | (m', _) => (m', false) end
  end.
