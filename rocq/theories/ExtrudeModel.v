(** * Model of src/polymesh/extrude.py and of TriMesh.extrude (trimesh.py)

    Definitions only, over the reals.  Points are the rows of a matrix with at least two columns (with one column numpy would
    repeat it).  [dt] is the element type of the array of points, used for the new coordinates.  [writes]: the assignments of
    single numbers that the parallel loops make, in the order of a sequential execution. *)
From Coq Require Import Reals.
From Verif Require Export EvalModel SpaceModel.
Local Open Scope R_scope.

(** extrude.py 16, 18 and 50, 52: [coords[nP * l : nP * (l + 1), :2] = points[:, :2]] *)
Definition layer_xy (points : list (list R)) (l : nat) : res (list (nat * nat * R)) :=
  do ws <- mapM (fun rp => do x <- get (snd rp) 0; do y <- get (snd rp) 1;
                           let n := (length points * l + fst rp)%nat in Ok [(n, 0%nat, x); (n, 1%nat, y)]) (enum points);
  Ok (concat ws).
(** 17-19 and 51-53: the coordinates of one layer; [h * (i + 1) / zres] *)
Definition layer_writes (dt : dtype) (points : list (list R)) (h : R) (zres i : nat) : res (list (nat * nat * R)) :=
  do xy <- layer_xy points (i + 1);
  do z <- div (h * INR (i + 1)) (INR zres);
  Ok (xy ++ map (fun r => ((length points * (i + 1) + r)%nat, 2%nat, store dt z)) (seq 0 (length points))).
Definition extrude_coord_writes (dt : dtype) (points : list (list R)) (h : R) (zres : nat) : res (list (nat * nat * R)) :=
  do w0 <- layer_xy points 0;
  do ws <- mapM (layer_writes dt points h zres) (seq 0 zres);
  Ok (w0 ++ concat ws).
(** 14-19 and 48-53 *)
Definition extrude_coords (dt : dtype) (points : list (list R)) (h : R) (zres : nat) : res (list (list R)) :=
  do ws <- extrude_coord_writes dt points h zres; run_writes2 ws (zeros2 0 (length points * (zres + 1)) 3).

(** the writes of one row *)
Definition row_writes (r : nat) (vals : list nat) : list (nat * nat * nat) := map (fun kv => (r, fst kv, snd kv)) (enum vals).
(** 21-39: the three tetrahedra above triangle [j] in layer [i].  The row of the triangle is unpacked into three numbers. *)
Definition tet_writes (nP : nat) (triangles : list (list nat)) (ij : nat * nat) : res (list (nat * nat * nat)) :=
  let '(i, j) := ij in
  let id := (i * length triangles * 3 + j * 3)%nat in
  do t <- get triangles j;
  match map (fun n => n + i * nP)%nat t, map (fun n => n + (i + 1) * nP)%nat t with
  | [i0; j0; k0], [i1; j1; k1] =>
      Ok (row_writes id [i0; j0; k0; k1] ++ row_writes (id + 1) [i0; j0; k1; j1] ++ row_writes (id + 2) [i0; j1; k1; i1])
  | _, _ => Err ValueError
  end.
Definition extrude_tet_writes (nP : nat) (triangles : list (list nat)) (zres : nat) : res (list (nat * nat * nat)) :=
  do ws <- mapM (tet_writes nP triangles) (list_prod (seq 0 zres) (seq 0 (length triangles))); Ok (concat ws).
(** extrude_T3_TET4, 10-40 *)
Definition extrude_T3_TET4 (dt : dtype) (points : list (list R)) (triangles : list (list nat)) (h : R) (zres : nat)
    : res (list (list R) * list (list nat)) :=
  do c <- extrude_coords dt points h zres;
  do ws <- extrude_tet_writes (length points) triangles zres;
  do t <- run_writes2 ws (zeros2 0%nat (length triangles * zres * 3) 4);
  Ok (c, t).

(** 55-65: the wedge above triangle [j] in layer [i] *)
Definition wedge_writes (nP : nat) (triangles : list (list nat)) (ij : nat * nat) : res (list (nat * nat * nat)) :=
  let '(i, j) := ij in
  let id := (i * length triangles + j)%nat in
  do t <- get triangles j;
  match map (fun n => n + i * nP)%nat t, map (fun n => n + (i + 1) * nP)%nat t with
  | [i0; j0; k0], [i1; j1; k1] => Ok (row_writes id [i0; j0; k0; i1; j1; k1])
  | _, _ => Err ValueError
  end.
Definition extrude_wedge_writes (nP : nat) (triangles : list (list nat)) (zres : nat) : res (list (nat * nat * nat)) :=
  do ws <- mapM (wedge_writes nP triangles) (list_prod (seq 0 zres) (seq 0 (length triangles))); Ok (concat ws).
(** extrude_T3_W6, 44-66 *)
Definition extrude_T3_W6 (dt : dtype) (points : list (list R)) (triangles : list (list nat)) (h : R) (zres : nat)
    : res (list (list R) * list (list nat)) :=
  do c <- extrude_coords dt points h zres;
  do ws <- extrude_wedge_writes (length points) triangles zres;
  do t <- run_writes2 ws (zeros2 0%nat (length triangles * zres) 6);
  Ok (c, t).

(** trimesh.py 135-136: [list(range(3))] without the element at the position [newaxis] *)
Definition other_axes (newaxis : nat) : res (list nat) :=
  match newaxis with 0 => Ok [1; 2]%nat | 1 => Ok [0; 2]%nat | 2 => Ok [0; 1]%nat | _ => Err IndexError end.
(** TriMesh.extrude, 110-142.  [planar]: the answer of [is_planar], tolerance of is_planar_surface as a parameter.
    [coords]: self.coords(), floating point; [newaxis]: self._newaxis. *)
Definition trimesh_extrude (coords : list (list R)) (topo : list (list nat)) (tol : R) (newaxis : nat) (h : R) (N : nat)
    : res (list (list R) * list (list nat)) :=
  do planar <- trimesh_is_planar coords topo tol;
  do _ <- guard planar RuntimeError;
  do inds <- other_axes newaxis;
  do x <- mapM (fun p => take p inds) coords;
  do xt <- extrude_T3_TET4 Floating x (map (firstn 3) topo) h N;
  do c <- mapM (fun p =>
      do xy <- take p [0; 1]%nat; do z <- get p (length p - 1);
      run_writes (combine inds xy ++ [(newaxis, z)]) (zeros 0 3)) (fst xt);
  Ok (c, snd xt).
