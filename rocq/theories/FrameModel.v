(** * Model of src/polymesh/space/frame.py and src/polymesh/space/pointcloud.py

    Definitions only, over the reals and in three dimensions.  The classes [Vector] and [Frame] of the package [neumann] are not part
    of the repository; what is used of them is modelled here as documented: a frame has three axes, a vector has components in a frame,
    [Vector.show] gives the components of the same vector in another frame, or in ambient space (the standard frame). *)
From Coq Require Import Reals ZArith.
From Verif Require Export Base.
Local Open Scope R_scope.

(** the rows of coordinate arrays *)
Definition vec : Type := R * R * R.
Definition vplus (a b : vec) : vec := let '(a0, a1, a2) := a in let '(b0, b1, b2) := b in (a0 + b0, a1 + b1, a2 + b2).
Definition vminus (a b : vec) : vec := let '(a0, a1, a2) := a in let '(b0, b1, b2) := b in (a0 - b0, a1 - b1, a2 - b2).
Definition vneg (a : vec) : vec := let '(a0, a1, a2) := a in (- a0, - a1, - a2).
Definition vzero : vec := (0, 0, 0).
(** the product of two rows, of a matrix (its rows) and a column, the transposed matrix: [np.dot], [@], [.T] *)
Definition vdot3 (a b : vec) : R := let '(a0, a1, a2) := a in let '(b0, b1, b2) := b in a0 * b0 + a1 * b1 + a2 * b2.
Definition mat : Type := vec * vec * vec.
Definition mvec (m : mat) (v : vec) : vec := let '(r0, r1, r2) := m in (vdot3 r0 v, vdot3 r1 v, vdot3 r2 v).
Definition mtrans (m : mat) : mat :=
  let '((a0, a1, a2), (b0, b1, b2), (c0, c1, c2)) := m in ((a0, b0, c0), (a1, b1, c1), (a2, b2, c2)).
Definition meye : mat := ((1, 0, 0), (0, 1, 0), (0, 0, 1)).

(** ** Frames

    The axes are the rows of a matrix, in ambient space.  The point of origin of a [CartesianFrame] of the repository, 76-97 of frame.py
    ([None], the default, means zeros, 95-96); the frames of the package [neumann] have no origin ([Plain]). *)
Inductive frame := Plain (a : mat) | Cartesian (a : mat) (o : vec).
Definition axes (f : frame) : mat := match f with Plain a => a | Cartesian a _ => a end.

(** [Vector(v, frame=f).show(target)] of the package [neumann]; a frame that is absent is the standard frame *)
Definition axes_opt (f : option frame) : mat := match f with Some g => axes g | None => meye end.
Definition vshow (f : option frame) (v : vec) (target : option frame) : vec := mvec (axes_opt target) (mvec (mtrans (axes_opt f)) v).

(** CartesianFrame.relative_origo, frame.py 159-169, of a frame with the point of origin [o] *)
Definition origin_of (f : frame) : vec := match f with Plain _ => vzero | Cartesian _ o => o end.
Definition relative_origo (o : vec) (target : option frame) : vec :=
  match target with
  | None => vshow None o None
  | Some t =>
      let s := vshow None o None in
      let t' := match t with Cartesian _ ot => vshow None ot None | Plain _ => vzero end in
      vshow None (vminus s t') target
  end.
(** the argument [d] of CartesianFrame.move: an array, or a vector with its frame *)
Inductive vectorlike := Array (v : vec) | Vect (v : vec) (f : option frame).
(** CartesianFrame.move, frame.py 210-217 *)
Definition frame_move (a : mat) (o : vec) (d : vectorlike) (f : option frame) : frame :=
  let d := match d with Array v => vshow f v None | Vect v g => vshow g v None end in Cartesian a (vplus o d).
(** the setter of CartesianFrame.origo, frame.py 99-110: the value is compared to the shape of the array of the axes; the value has one
    axis ([inl]) or is a matrix ([inr]).  (The vectors that refer to the frame, 105-107, are left out.) *)
Definition set_origo (a : mat) (o : vec) (value : vec + mat) : res frame :=
  match value with inl _ => Err ValueError | inr m => Ok (Cartesian m o) end.

(** Moving a frame changes the array that holds its origin, 216: frames in a memory of such arrays.  [FrameRef a i]: the axes and the
    number of the array.  CartesianFrame.copy, 225-240: a shallow copy gets the array of the original (an array is not copied by the
    constructor, 81-92), a deep copy gets a new one. *)
Record frame_ref := FrameRef { ref_axes : mat; ref_origo : nat }.
Definition memory : Type := list vec.
Definition frame_at (m : memory) (f : frame_ref) : res frame := do o <- get m (ref_origo f); Ok (Cartesian (ref_axes f) o).
Definition copy_frame (deep : bool) (m : memory) (f : frame_ref) : res (memory * frame_ref) :=
  do o <- get m (ref_origo f);
  if deep then Ok (m ++ [o], FrameRef (ref_axes f) (length m)) else Ok (m, f).
Definition move_frame (m : memory) (f : frame_ref) (d : vectorlike) (g : option frame) : res memory :=
  do o <- get m (ref_origo f);
  match frame_move (ref_axes f) o d g with Cartesian _ o' => set m (ref_origo f) o' | Plain _ => Ok m end.

(** ** Point clouds

    PointCloud, pointcloud.py 137-142: the coordinates, the frame (without one the standard frame, 138-140), the indices. *)
Record cloud := Cloud { array : list vec; cframe : frame; inds : option (list Z) }.
Definition new_cloud (x : list vec) (f : option frame) (i : option (list Z)) : cloud :=
  Cloud x (match f with Some g => g | None => Cartesian meye vzero end) i.

(** dcoords, 48-57: the components of [v] in every row *)
Definition dcoords (x : list vec) (v : vec) : list vec := map (fun _ => v) x.
(** the sum of two arrays with the same number of rows *)
Definition rows_plus (x y : list vec) : list vec := map (fun ab => vplus (fst ab) (snd ab)) (combine x y).
(** PointCloud.show, 379-387 *)
Definition show (c : cloud) (target : option frame) : list vec :=
  let x := map (fun p => vshow (Some (cframe c)) p target) (array c) in
  match cframe c with
  | Cartesian _ o => rows_plus x (dcoords x (relative_origo o target))
  | Plain _ => x
  end.
(** the setter of PointCloud.frame, 172-187 *)
Definition set_frame (c : cloud) (target : frame) : cloud := Cloud (show c (Some target)) target (inds c).
(** PointCloud.x, y, z, 196-209, of a cloud of points *)
Definition xs_of (c : cloud) (target : option frame) : list R := map (fun p => fst (fst p)) (show c target).
Definition ys_of (c : cloud) (target : option frame) : list R := map (fun p => snd (fst p)) (show c target).
Definition zs_of (c : cloud) (target : option frame) : list R := map (fun p => snd p) (show c target).
(** [np.mean] of a column; not a number for an empty array, reported as ValueError *)
Definition mean (l : list R) : res R :=
  match l with [] => Err ValueError | _ => Ok (fold_left Rplus l 0 / INR (length l)) end.
(** PointCloud.center, 226-246 *)
Definition center (c : cloud) (target : option frame) : res vec :=
  do x <- mean (xs_of c target); do y <- mean (ys_of c target); do z <- mean (zs_of c target); Ok (x, y, z).
(** PointCloud.move, 427-433 (a frame counts as true) *)
Definition move (c : cloud) (v : vectorlike) (f : option frame) : cloud :=
  let arr := match v, f with
             | Array w, Some _ => vshow f w (Some (cframe c))
             | Array w, None => w
             | Vect w _, _ => w
             end in
  Cloud (rows_plus (array c) (dcoords (array c) arr)) (cframe c) (inds c).
(** component [i] of a row, assignment to it *)
Definition comp (v : vec) (i : nat) : res R :=
  let '(x, y, z) := v in match i with 0 => Ok x | 1 => Ok y | 2 => Ok z | _ => Err IndexError end%nat.
Definition set_comp (v : vec) (i : nat) (t : R) : res vec :=
  let '(x, y, z) := v in match i with 0 => Ok (t, y, z) | 1 => Ok (x, t, z) | 2 => Ok (x, y, t) | _ => Err IndexError end%nat.
(** PointCloud.centralize, 435-462 *)
Definition centralize (c : cloud) (target : option frame) (ax : option (list nat)) : res cloud :=
  do ctr <- center c target;
  let ax := match ax with None => seq 0 3 | Some l => l end in
  do d <- foldM (fun d i => do t <- comp ctr i; set_comp d i t) ax vzero;
  Ok (move c (Array (vneg d)) target).

(** ** Indexing of point clouds, 144-163

    The key (its first part, if it is a tuple): a slice, a list of indices, a list of booleans, or an index. *)
Inductive key := KSlice (start stop step : option Z) | KList (l : list Z) | KMask (l : list bool) | KInt (i : Z).
(** the builtin [range(a, b, s)]; ValueError if the step is zero *)
Definition zrange3 (a b s : Z) : res (list Z) :=
  if Z.eqb s 0 then Err ValueError
  else let n := if Z.ltb 0 s then Z.div (b - a + s - 1) s else Z.div (a - b - s - 1) (- s) in
       Ok (map (fun k => (a + s * Z.of_nat k)%Z) (seq 0 (Z.to_nat n))).
(** indices of numpy arrays: negative ones count from the end *)
Definition np_get {A} (l : list A) (i : Z) : res A :=
  if Z.leb 0 i then get l (Z.to_nat i)
  else if Z.leb (- Z.of_nat (length l)) i then get l (Z.to_nat (Z.of_nat (length l) + i)) else Err IndexError.
(** the bounds of a slice of an array with [n] rows (the builtin [slice.indices]) *)
Definition clip (lo hi x : Z) : Z := Z.max lo (Z.min hi x).
Definition slice_bounds (n : Z) (start stop step : option Z) : Z * Z * Z :=
  let s := match step with Some s => s | None => 1%Z end in
  let lo := if Z.ltb s 0 then (-1)%Z else 0%Z in
  let hi := if Z.ltb s 0 then (n - 1)%Z else n in
  let bound x := clip lo hi (if Z.ltb x 0 then (x + n)%Z else x) in
  let a := match start with Some x => bound x | None => if Z.ltb s 0 then hi else lo end in
  let b := match stop with Some x => bound x | None => if Z.ltb s 0 then lo else hi end in
  (a, b, s).
(** the entries of [l] where the mask is true; the mask has as many entries *)
Definition masked {A} (l : list A) (m : list bool) : res (list A) :=
  if Nat.eqb (length l) (length m) then Ok (map fst (filter snd (combine l m))) else Err IndexError.
(** indexing of a numpy array with one of the keys (an index gives one row) *)
Definition np_getitem {A} (l : list A) (k : key) : res (list A) :=
  match k with
  | KSlice a b s =>
      let '(a', b', s') := slice_bounds (Z.of_nat (length l)) a b s in
      do r <- zrange3 a' b' s'; mapM (np_get l) r
  | KList is => mapM (np_get l) is
  | KMask m => masked l m
  | KInt i => do x <- np_get l i; Ok [x]
  end.
(** PointCloud.__getitem__, 144-163.  The indices are a list of integers ([inl]) or of booleans ([inr]), which [np.array(.., dtype=int)],
    142, turns into integers. *)
Definition key_inds (n : nat) (k : key) : res (list Z + list bool) :=
  match k with
  | KSlice a b s =>
      let a := match a with Some x => x | None => 0%Z end in
      let s := match s with Some x => x | None => 1%Z end in
      let b := match b with Some x => x | None => Z.of_nat n end in
      do r <- zrange3 a b s; Ok (inl r)
  | KList l => Ok (inl l)
  | KMask m => Ok (inr m)
  | KInt i => Ok (inl [i])
  end.
Definition getitem (c : cloud) (k : key) : res cloud :=
  do i <- key_inds (length (array c)) k;
  do i <- match inds c, i with
          | None, inl l => Ok l
          | None, inr m => Ok (map (fun b : bool => if b then 1%Z else 0%Z) m)
          | Some own, inl l => mapM (np_get own) l
          | Some own, inr m => masked own m
          end;
  do a <- np_getitem (array c) k;
  Ok (Cloud a (cframe c) (Some i)).

(** PointCloud.sort_indices, 507-515, and idsort, 500-505: [np.argsort] gives the positions in an order in which the indices do not decrease
    (insertion sort here; for equal indices numpy may choose another order) *)
Fixpoint insert_by (key : nat -> Z) (i : nat) (l : list nat) : list nat :=
  match l with [] => [i] | j :: t => if Z.leb (key i) (key j) then i :: l else j :: insert_by key i t end.
Definition argsort (l : list Z) : list nat := fold_right (insert_by (fun i => nth i l 0%Z)) [] (seq 0 (length l)).
Definition sort_indices (c : cloud) : res cloud :=
  match inds c with
  | None => Err TypeError
  | Some l =>
      let s := argsort l in
      do a <- mapM (get (array c)) s; do i <- mapM (get l) s; Ok (Cloud a (cframe c) (Some i))
  end.
