(** * Model of further queries of blocks of cells: src/polymesh/cell.py, src/polymesh/line.py

    Definitions only, over the reals.  A block of cells is given by the coordinates of the points of the mesh, its topology, the
    indices of its cells and their frames. *)
From Coq Require Import Reals.
From Verif Require Import TrModel.
From Verif Require Export LocModel NodalModel TopoModel IncidenceModel.
Local Open Scope R_scope.

(** ** Points of selected cells *)

(** [cells[np.isin(cells, ids)]] *)
Definition isin (cells ids : list nat) : list nat := filter (fun c => existsb (Nat.eqb c) ids) cells.
(** the argument [cells] of PolyCell.points_of_cells, cell.py 397-403: [None] for the slice of all cells *)
Definition selection (ids : list nat) (cells : option (list nat)) : res (option (list nat)) :=
  match cells with
  | None => Ok None
  | Some c => do _ <- guard (Nat.ltb 0 (length (isin c ids))) AssertionError; Ok (Some (isin c ids))
  end.
(** indexing of the first axis of an array with a selection *)
Definition picked_rows {A} (l : list A) (sel : option (list nat)) : res (list A) :=
  match sel with None => Ok l | Some c => mapM (get l) c end.
(** utils/utils.py pcoords_to_coords, 897-906, where the number of positions need not be that of the rows of [shp] (the compiled
    function does not check the index; here reading past the end is an IndexError) *)
Definition pcoords_to_coords_n (nP : nat) (ecoords : list (list (list R))) (shp : list (list R)) : res (list (list (list R))) :=
  mapM (fun ec =>
    mapM (fun iP =>
      do s <- get shp iP;
      foldM (fun acc iNE => do p <- get ec iNE; do w <- get s iNE; vadd acc (vscale w p)) (seq 0 (length ec)) (repeat 0 (ncols ec)))
    (seq 0 nP)) ecoords.
(** PolyCell.points_of_cells, cell.py 387-423.  The positions are the rows of an array with two axes; the values of the shape
    functions have as many rows (an array with three axes does not occur, 419-421 looks at its length). *)
Definition points_of_cells (shpfnc : list R -> res (list R)) (coords : list (list R)) (topo : list (list nat)) (ids : list nat)
    (points : option (list (list R))) (cells : option (list nat)) : res (list (list (list R))) :=
  do sel <- selection ids cells;
  do t <- picked_rows topo sel;
  do ecoords <- cells_coords coords t;
  match points with
  | None => Ok ecoords
  | Some x =>
      do shp <- mapM shpfnc x;
      do shp <- if Nat.eqb (length shp) 3 then picked_rows shp sel else Ok shp;
      pcoords_to_coords_n (length x) ecoords shp
  end.

(** ** Local coordinates *)

(** the argument [local_axes] of utils.py points_of_cells, 176-228: a matrix for each cell (the property [frames] of the cells), or
    one matrix ([target.show()] of a frame, cell.py 437-438) *)
Inductive local_axes := PerCell (f : list (list (list R))) | Single (f : list (list R)).
(** the loop body of _cells_coords_tr_, utils.py 231-239: [local_axes[i] @ p], written to all components of the result.  For a single
    matrix [local_axes[i]] is a row and the product is a number.  (The compiled function does not check the index; here reading past
    the end is an IndexError.) *)
Definition to_local (ax : local_axes) (i : nat) (p : list R) : res (list R) :=
  match ax with
  | PerCell fs => do dcm <- get fs i; matvec dcm p
  | Single f => do row <- get f i; do x <- vdot row p; Ok (repeat x (length p))
  end.
(** PolyCell.local_coordinates, cell.py 425-446 *)
Definition block_coordinates (coords : list (list R)) (topo : list (list nat)) (ax : local_axes) : res (list (list (list R))) :=
  do ec <- cells_coords coords topo;
  do ec <- centralize_cells_coords ec;
  mapM (fun ie => mapM (to_local ax (fst ie)) (snd ie)) (enum ec).
(** PolyCell2d.local_coordinates, cell.py 824-829 *)
Definition block_coordinates_2d (coords : list (list R)) (topo : list (list nat)) (ax : local_axes) : res (list (list (list R))) :=
  do ec <- block_coordinates coords topo ax; Ok (map (map (firstn 2)) ec).

(** ** Determinants of the Jacobian *)

(** PolyCell.jacobian_matrix, cell.py 317-339, and jacobian, 340-363; [local] are the local coordinates of the cells, [nD] the number
    of columns of the derivatives.  Without matrices and without derivatives the compiled function rejects its argument. *)
Definition jacobian (nD : nat) (local : res (list (list (list R)))) (jac : option (list (list (list (list R))))) (dshp : option (list (list (list R))))
    : res (list (list R)) :=
  do j <- match jac with
          | Some j => Ok j
          | None => do ec <- local; match dshp with Some d => jacobian_matrix_bulk nD d ec | None => Err TypeError end
          end;
  mapM (mapM det) j.
(** Line.jacobian, line.py 34-47: the derivatives are not used *)
Definition line_jacobian (jac : option (list (list (list (list R))))) (dshp : option (list (list (list R)))) : res (list (list R)) :=
  match jac with Some j => jacobian_det_bulk_1d j | None => Err TypeError end.

(** ** Points of a block, simplices *)

(** PolyCell.unique_indices, cell.py 633-637, with [unique] of topoarray.py, 139-141 *)
Definition unique_indices (topo : list (list nat)) : list nat := IncidenceModel.unique topo.
(** PolyCell.points_involved, cell.py 639-641: the coordinates of the points of the cloud with these indices *)
Definition points_involved (coords : list (list R)) (topo : list (list nat)) : res (list (list R)) := mapM (get coords) (unique_indices topo).
(** PolyCell.detach_points_cells, cell.py 643-646 *)
Definition detach_points_cells (coords : list (list R)) (topo : list (list nat)) : res (list (list R) * list (list nat)) := detach_mesh_bulk coords topo.
(** PolyCell.to_simplices, cell.py 611-621.  [depth] is the depth to which calls can be nested (a RecursionError, which is a RuntimeError,
    is raised beyond); other numbers of dimensions give None. *)
Fixpoint to_simplices (depth NDIM : nat) (to_triangles to_tetrahedra : res (list (list nat))) : res (option (list (list nat))) :=
  match depth with
  | O => Err RuntimeError
  | S d =>
      if Nat.eqb NDIM 1 then to_simplices d NDIM to_triangles to_tetrahedra
      else if Nat.eqb NDIM 2 then do t <- to_triangles; Ok (Some t)
      else if Nat.eqb NDIM 3 then do t <- to_tetrahedra; Ok (Some t)
      else Ok None
  end.
