(** * Model of src/polymesh/utils/space.py and of the geometric queries of src/polymesh/trimesh.py

    Definitions only, over the reals.  Except [frames_of_lines], [index_of_closest_point] and
    [index_of_furthest_point] the functions of space.py are compiled with numba.  The iterations of the parallel
    loops write different entries of the results.  A quotient 0 / 0 (not a number) is reported as ValueError, see
    [normalize]. *)
From Coq Require Import Reals.
From Verif Require Import TrModel.
From Verif Require Export NodalModel LocModel.
Local Open Scope R_scope.

(** ** Frames *)

(** [np.argmin], [np.argmax]: the first index of the least / greatest entry; ValueError for an empty array *)
Fixpoint arg_best (better : R -> R -> bool) (best : nat) (x : R) (i : nat) (l : list R) : nat :=
  match l with
  | [] => best
  | y :: t => if better y x then arg_best better i y (S i) t else arg_best better best x (S i) t
  end.
Definition argmin (l : list R) : res nat :=
  match l with [] => Err ValueError | x :: t => Ok (arg_best (fun y x => if Rlt_dec y x then true else false) 0 x 1 t) end.
Definition argmax (l : list R) : res nat :=
  match l with [] => Err ValueError | x :: t => Ok (arg_best (fun y x => if Rlt_dec x y then true else false) 0 x 1 t) end.
(** the greatest entry; ValueError for an empty array *)
Definition rmax (l : list R) : res R := match l with [] => Err ValueError | x :: t => Ok (fold_left Rmax t x) end.

(** the assignments 35-38, 64-67 and 101-104: two directions are normalized, the third axis is perpendicular to them, the
    second one is replaced.  The axes are stored in an array of the element type [dt] of the coordinates. *)
Definition axes_of (dt : dtype) (u v : list R) : res (list R * list R * list R) :=
  do a <- normalize u; let a := map (store dt) a in
  do b <- normalize v; let b := map (store dt) b in
  do n <- vcross a b; do c <- normalize n; let c := map (store dt) c in
  do b <- vcross c a;
  Ok (a, map (store dt) b, c).
(** a matrix with the given columns *)
Definition of_columns (a b c : list R) : list (list R) := map (fun i => [nth i a 0; nth i b 0; nth i c 0]) (seq 0 3).
(** frame_of_plane, 14-39.  [np.int] means [int] here (in numpy 1.24 and later it does not exist any more). *)
Definition frame_of_plane (dt : dtype) (coords : list (list R)) : res (list R * list (list R)) :=
  do center <- center_of_points dt coords;
  do p <- get coords 0; do u <- vsub p center;
  do q <- get coords (Nat.div (length coords) 2); do v <- vsub q center;
  do abc <- axes_of dt u v;
  let '(a, b, c) := abc in Ok (center, of_columns a b c).
(** frames_of_surfaces, 42-68 *)
Definition frame_of_surface (dt : dtype) (coords : list (list R)) (nodes : list nat) : res (list (list R)) :=
  do n1 <- get nodes 1; do p1 <- get coords n1; do n0 <- get nodes 0; do p0 <- get coords n0; do u <- vsub p1 p0;
  do nl <- get nodes (length nodes - 1); do pl <- get coords nl; do v <- vsub pl p0;
  do abc <- axes_of dt u v;
  let '(a, b, c) := abc in Ok [a; b; c].
Definition frames_of_surfaces (dt : dtype) (coords : list (list R)) (topo : list (list nat)) : res (list (list (list R))) :=
  mapM (frame_of_surface dt coords) topo.
(** tr_cell_glob_to_loc_bulk, 71-109 (floating point coordinates): local coordinates, centres, frames *)
Definition tr_cell_glob_to_loc (coords : list (list R)) (nodes : list nat) : res (list (list R) * list R * list (list R)) :=
  do ec <- mapM (get coords) nodes;
  do center <- cell_center Floating ec;
  do fr <- frame_of_surface Floating coords nodes;
  do a <- get fr 0; do b <- get fr 1;
  do loc <- mapM (fun p => do v <- vsub p center; do x <- vdot a v; do y <- vdot b v; Ok [x; y]) ec;
  Ok (loc, center, fr).
Definition tr_cell_glob_to_loc_bulk (coords : list (list R)) (topo : list (list nat))
    : res (list (list (list R) * list R * list (list R))) := mapM (tr_cell_glob_to_loc coords) topo.

(** [np.eye(3)], 115 *)
Definition ijk : list (list R) := [[1; 0; 0]; [0; 1; 0]; [0; 0; 1]].
(** _frames_of_lines_auto, 112-124 (floating point coordinates) *)
Definition frame_of_line_auto (coords : list (list R)) (nodes : list nat) : res (list (list R)) :=
  do nl <- get nodes (length nodes - 1); do pl <- get coords nl; do n0 <- get nodes 0; do p0 <- get coords n0; do u <- vsub pl p0;
  do a <- normalize u;
  do dots <- matvec ijk a;
  do i2 <- argmin (map Rabs dots);
  do e <- get ijk i2;
  do d <- vdot e a;
  do w <- vsub e (vscale d a);
  do c <- normalize w;
  do b <- vcross c a;
  Ok [a; b; c].
(** _frames_of_lines_ref, 127-137 (floating point coordinates), for a line and its reference point *)
Definition frame_of_line_ref (coords : list (list R)) (nodes : list nat) (ref : list R) : res (list (list R)) :=
  do nl <- get nodes (length nodes - 1); do pl <- get coords nl; do n0 <- get nodes 0; do p0 <- get coords n0; do u <- vsub pl p0;
  do a <- normalize u;
  do k <- vsub ref p0;
  do d <- vdot a k;
  do w <- vsub k (vscale d a);
  do c <- normalize w;
  do b <- vcross c a;
  Ok [a; b; c].
(** frames_of_lines, 140-175.  The topology: a single line (one axis, 166) or several; [refZ]: absent, an array with one axis or
    with two, or an object of another kind (a list, for example). *)
Inductive lines := OneLine (nodes : list nat) | Lines (topo : list (list nat)).
(** frames_of_lines, 166: the cells as rows of a matrix *)
Definition topo_of (l : lines) : list (list nat) := match l with OneLine nodes => [nodes] | Lines t => t end.
Inductive refs := RefNone | RefPoint (p : list R) | RefPoints (ps : list (list R)) | RefOther.
Definition frames_of_lines (coords : list (list R)) (topo : lines) (refZ : refs) : res (list (list (list R))) :=
  let topo := match topo with OneLine nodes => [nodes] | Lines t => t end in
  match refZ with
  | RefPoint p => mapM (fun nodes => frame_of_line_ref coords nodes p) topo
  | RefPoints ps => mapM (fun ir => do p <- get ps (fst ir); frame_of_line_ref coords (snd ir) p) (enum topo)
  | RefNone | RefOther => mapM (frame_of_line_auto coords) topo
  end.

(** ** Planar surfaces, planar points, points on a line *)

(** [a <= tol] as a boolean *)
Definition rleb (x y : R) : bool := if Rle_dec x y then true else false.
(** is_planar_surface, 178-201 *)
Definition is_planar_surface (normals : list (list R)) (tol : R) : res bool :=
  do diffs <- mapM (fun i => if Nat.eqb i 0 then Ok 0
                             else do n <- get normals i; do n0 <- get normals 0; do d <- vdot n n0; Ok (Rabs (d - 1)))
                   (seq 0 (length normals));
  do m <- rmax diffs; Ok (rleb m tol).
(** trimesh.py TriMesh.axes, 90-96, normals, 98-102, is_planar, 104-108 (floating point coordinates); the nodes at the corners are
    the first three *)
Definition trimesh_axes (coords : list (list R)) (topo : list (list nat)) : res (list (list (list R))) :=
  do _ <- guard (Nat.eqb (ncols coords) 3) AssertionError;
  frames_of_surfaces Floating coords (map (firstn 3) topo).
Definition trimesh_normals (coords : list (list R)) (topo : list (list nat)) : res (list (list R)) :=
  do axes <- trimesh_axes coords topo; mapM (fun fr => get fr 2) axes.
Definition trimesh_is_planar (coords : list (list R)) (topo : list (list nat)) (tol : R) : res bool :=
  do n <- trimesh_normals coords topo; is_planar_surface n tol.

(** distances_from_point, 204-211, with [normalize=False]; [neumann.linalg.norm2d] (not part of the repository): the lengths of
    the rows *)
Definition distances_from_point (coords : list (list R)) (p : list R) : res (list R) :=
  mapM (fun q => do v <- vsub q p; norm v) coords.
(** distance_matrix, 214-222; the result has the element type [dt] of [x] *)
Definition distance_matrix (dt : dtype) (x y : list (list R)) : res (list (list R)) :=
  mapM (fun p => mapM (fun q => do v <- vsub p q; do d <- norm v; Ok (store dt d)) y) x.
(** move_points, 348-353 (floating point coordinates) *)
Definition move_points (coords : list (list R)) (p : list R) : res (list (list R)) := mapM (fun q => vadd q p) coords.
(** is_line, 290-315.  [zero] is what [neumann.linalg.normalize2d] (not part of the repository) makes of a row of zeros: not a
    number (reported as ValueError) or the row itself.  A maximum that is not a number is not less than the tolerance. *)
Definition normalize_row (zero : res (list R)) (v : list R) : res (list R) :=
  do n <- norm v; if Req_EM_T n 0 then zero else normalize v.
Definition is_line (zero : res (list R)) (coords : list (list R)) (tol : R) : res bool :=
  do p0 <- get coords 0;
  do m <- move_points coords (map Ropp p0);
  match mapM (normalize_row zero) m with
  | Err _ => Ok false
  | Ok c =>
      do cl <- get c (length c - 1); do c0 <- get c 0; do d <- vsub cl c0;
      do diffs <- mapM (fun i => if Nat.eqb i 0 then Ok 0 else do ci <- get c i; do x <- vdot ci d; Ok (Rabs x)) (seq 0 (length coords));
      do mx <- rmax diffs; Ok (rleb mx tol)
  end.
(** is_planar, 318-345 (floating point coordinates).  If the three points chosen are on a line the axes are not numbers and the
    answer is False. *)
Definition is_planar (coords : list (list R)) (tol : R) : res bool :=
  do p0 <- get coords 0;
  do dA <- distances_from_point coords p0;
  do iB <- argmax dA;
  do pB <- get coords iB;
  do dB <- distances_from_point coords pB;
  do dAB <- vadd dA dB;
  do iC <- argmax dAB;
  do pC <- get coords iC;
  match frame_of_plane Floating [p0; pB; pC] with
  | Err _ => Ok false
  | Ok (_, tr) =>
      do d <- mapM (fun row => get row 2) tr;
      do diffs <- mapM (fun i => if Nat.eqb i 0 then Ok 0 else do p <- get coords i; do x <- vdot p d; Ok (Rabs x)) (seq 0 (length coords));
      do mx <- rmax diffs; Ok (rleb mx tol)
  end.

(** ** Closest and furthest points *)

(** the target: one position or several *)
Inductive target := Target1 (p : list R) | Targets (ps : list (list R)).
(** index_of_closest_point, 225-249, 280-282: one index or one for each of the positions.  For several positions the search tree
    is used, see [k_nearest_neighbours]. *)
Inductive index_result := Index1 (i : nat) | Indices (i : list nat).
Definition index_of_closest_point (query : list (list R) -> list R -> nat -> option R -> list nat) (coords : list (list R)) (t : target) : res index_result :=
  match t with
  | Target1 p => do _ <- guard (Nat.eqb (ncols coords) (length p)) AssertionError;
                 do d <- distances_from_point coords p; do i <- argmin d; Ok (Index1 i)
  | Targets ps => match k_nearest_neighbours query false coords ps 1 None with
                  | Inds1 i => Ok (Indices i)
                  | Inds2 _ => Err ValueError       (* does not happen *)
                  end
  end.
(** index_of_furthest_point, 252-277, 285-287.  [dt] is the element type of the target. *)
Definition index_of_furthest_point (dt : dtype) (coords : list (list R)) (t : target) : res index_result :=
  match t with
  | Target1 p => do _ <- guard (Nat.eqb (ncols coords) (length p)) AssertionError;
                 do d <- distances_from_point coords p; do i <- argmax d; Ok (Index1 i)
  | Targets ps => do d <- distance_matrix dt ps coords; do i <- mapM argmax d; Ok (Indices i)
  end.
