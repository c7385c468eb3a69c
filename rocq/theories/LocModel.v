(** * Model of the geometric queries of cells: src/polymesh/cell.py, src/polymesh/utils/cells/utils.py,
    src/polymesh/utils/locate.py, src/polymesh/utils/knn.py

    Definitions only, over the reals.  A block of cells is given by the coordinates of the points of the mesh and by
    its topology; positions are given as a list ([atleast2d] of cell.py 541, 999, 1075 turns one position into a list of one). *)
From Coq Require Import Reals.
From Verif Require Import TrModel.
From Verif Require Export TriModel QuadModel.
Local Open Scope R_scope.

(** ** Local to global *)

(** columns of a matrix as rows: [shp.T] *)
Definition transpose (M : list (list R)) : res (list (list R)) :=
  mapM (fun j => mapM (fun row => get row j) M) (seq 0 (ncols M)).
(** utils/cells/utils.py _loc_to_glob_bulk_, 24-47: [shp @ gcoords[i]], a matrix with as many rows as [shp], stored in
    an array with as many rows as [shp] has columns; numba raises if the shapes do not agree *)
Definition loc_to_glob_bulk (shp : list (list R)) (gcoords : list (list (list R))) : res (list (list (list R))) :=
  mapM (fun ec => do _ <- guard (Nat.eqb (length shp) (ncols shp)) ValueError; matmul shp ec) gcoords.
(** cell.py PolyCell.loc_to_glob, 517-543.  [shpfnc] is the function of the element that evaluates the shape functions
    at one position (see CellsModel.v); [shape_function_values] applies it to each of the positions *)
Definition loc_to_glob (shpfnc : list R -> res (list R)) (coords : list (list R)) (topo : list (list nat)) (x : list (list R))
    : res (list (list (list R))) :=
  do shp <- mapM shpfnc x;
  do ecoords <- cells_coords coords topo;
  do shpT <- transpose shp;
  loc_to_glob_bulk shpT ecoords.
(** utils/utils.py pcoords_to_coords, 897-906.  The iterations of the parallel loops write different rows. *)
Definition pcoords_to_coords (ecoords : list (list (list R))) (shp : list (list R)) : res (list (list (list R))) :=
  mapM (fun ec =>
    mapM (fun s =>
      foldM (fun acc iNE => do p <- get ec iNE; do w <- get s iNE; vadd acc (vscale w p)) (seq 0 (length ec)) (repeat 0 (ncols ec)))
    shp) ecoords.
(** cell.py PolyCell.points_of_cells, 387-423, with [points] given and without [cells] *)
Definition points_of_cells_at (shpfnc : list R -> res (list R)) (coords : list (list R)) (topo : list (list nat)) (x : list (list R))
    : res (list (list (list R))) :=
  do ecoords <- cells_coords coords topo;
  do shp <- mapM shpfnc x;
  pcoords_to_coords ecoords shp.

(** ** Areas and volumes *)

(** utils/utils.py _centralize_cells_coords_, 242-250; _cells_coords_tr_, 231-239; points_of_cells, 176-228 with frames *)
Definition centralize_cells_coords (ecoords : list (list (list R))) : res (list (list (list R))) :=
  mapM (fun ec => do c <- vmean ec; mapM (fun p => vsub p c) ec) ecoords.
Definition cells_coords_tr (ecoords : list (list (list R))) (local_axes : list (list (list R))) : res (list (list (list R))) :=
  do r <- map2 (fun ec dcm => mapM (matvec dcm) ec) ecoords local_axes; mapM (fun x => x) r.
Definition points_of_cells_local (coords : list (list R)) (topo : list (list nat)) (local_axes : list (list (list R)))
    : res (list (list (list R))) :=
  do ec <- cells_coords coords topo; do ec <- centralize_cells_coords ec; cells_coords_tr ec local_axes.
(** [np.sum(a.reshape(nE, int(len(a) / nE)), axis=1)]; the quotient fails for a block without cells *)
Definition sum_groups (nE : nat) (a : list R) : res (list R) :=
  if Nat.eqb nE 0 then Err ZeroDivisionError else
  if Nat.eqb (nE * (length a / nE)) (length a) then Ok (map ksum (reshape nE (length a / nE) a)) else Err ValueError.
(** cell.py PolyCell2d.areas, 795-808; polygon.py Triangle.areas, 46-50 (the case of one triangle per cell) *)
Definition areas_2d (trimap : list (list nat)) (coords : list (list R)) (topo : list (list nat)) (frames : list (list (list R))) : res (list R) :=
  do ec <- points_of_cells_local coords topo frames;
  do ec_tri <- triangulate_cell_coords ec trimap;
  do a <- area_tri_bulk ec_tri;
  sum_groups (length topo) a.
Definition areas_T3 (coords : list (list R)) (topo : list (list nat)) (frames : list (list (list R))) : res (list R) :=
  do ec <- points_of_cells_local coords topo frames; area_tri_bulk ec.
(** polygon.py trimap: T3 27-29, Q4 92-94, Q9 107-121 *)
Definition trimap_T3 : list (list nat) := [[0; 1; 2]]%nat.
Definition trimap_Q4 : list (list nat) := [[0; 1; 2]; [0; 2; 3]]%nat.
Definition trimap_Q9 : list (list nat) :=
  [[0; 4; 8]; [0; 8; 7]; [4; 1; 5]; [4; 5; 8]; [8; 5; 2]; [8; 2; 6]; [7; 8; 6]; [7; 6; 3]]%nat.
(** cells/t6.py T6.areas, 76-88: the first two coordinates only *)
Definition areas_of_T6 (coords : list (list R)) (topo : list (list nat)) : res (list R) :=
  do ecoords <- cells_coords (map (firstn 2) coords) topo; areas_T6 ecoords.
(** cell.py PolyCell3d.to_tetrahedra, 890-910 (polyhedron.py TetraHedron.to_tetrahedra, 29-34, is the same) *)
Definition to_tetrahedra (tetmap : list (list nat)) (topo : list (list nat)) : res (list (list nat)) :=
  transform_topology_ 0%nat topo tetmap.
(** cell.py PolyCell3d.volumes, 957-968 *)
Definition volumes_3d (tetmap : list (list nat)) (coords : list (list R)) (topo : list (list nat)) : res (list R) :=
  do topo_tet <- to_tetrahedra tetmap topo;
  do ec <- cells_coords coords topo_tet;
  do v <- vol_tet_bulk ec;
  sum_groups (length topo) v.
(** polyhedron.py tetmap: TET4 25-27, TET10 44-49 with its default argument, H8 59-64, H27 (none, the one of
    cell.py 882-887), W6 82-87, W18 97-113 *)
Definition tetmap_TET4 : list (list nat) := [[0; 1; 2; 3]]%nat.
Definition tetmap_TET10 : res (list (list nat)) := Err NotImplementedError.
Definition tetmap_H8 : list (list nat) := [[1; 2; 0; 5]; [3; 0; 2; 7]; [5; 4; 7; 0]; [6; 5; 7; 2]; [0; 2; 7; 5]]%nat.
Definition tetmap_H27 : res (list (list nat)) := Err NotImplementedError.
Definition tetmap_W6 : list (list nat) := [[0; 1; 2; 4]; [3; 5; 4; 2]; [2; 5; 0; 4]]%nat.
Definition tetmap_W18 : res (list (list nat)) :=
  compose_trmap [[15; 13; 16; 9; 4; 10]; [17; 16; 14; 11; 10; 5]; [17; 15; 16; 11; 9; 10]; [12; 15; 17; 3; 9; 11]; [6; 1; 7; 15; 13; 16];
    [8; 6; 7; 17; 15; 16]; [8; 7; 2; 17; 16; 14]; [8; 0; 6; 17; 12; 15]]%nat tetmap_W6.

(** ** Nearest neighbours *)

(** the array returned by [KDTree.query]: with one index for each position, or with a row of indices for each *)
Inductive inds := Inds1 (i : list nat) | Inds2 (i : list (list nat)).
Section Knn.
  (** [query X y k bound]: the answer of the tree of the positions [X] for the position [y] *)
  Context (query : list (list R) -> list R -> nat -> option R -> list nat).
  (** utils/knn.py k_nearest_neighbours, 19-125, with the backend 'scipy'; [old] for scipy before 1.6.0 *)
  Definition k_nearest_neighbours (old : bool) (X Y : list (list R)) (k : nat) (max_distance : option R) : inds :=
    let bound := if old then max_distance else None in
    if Nat.eqb k 1 then Inds1 (map (fun y => nth 0 (query X y k bound) 0%nat) Y) else Inds2 (map (fun y => query X y k bound) Y).
End Knn.

(** ** Search for hits *)

(** utils/cells/utils.py _find_first_hits_, 125-135, and _find_first_hits_knn_, 138-148, executing the iterations
    [its] of the two nested parallel loops in this order; [target] is the number stored for a hit *)
Definition find_hits_in (its : list (nat * nat)) (pips : list (list bool)) (target : nat -> nat -> res nat) : res (list nat * list nat) :=
  foldM (fun gr ij =>
    do b <- get2 pips (fst ij) (snd ij);
    if b : bool then
      do t <- target (fst ij) (snd ij);
      do g <- set (fst gr) (fst ij) t;
      do r <- set (snd gr) (fst ij) (snd ij);
      Ok (g, r)
    else Ok gr) its (zeros 0%nat (length pips), zeros 0%nat (length pips)).
(** the sequential order *)
Definition hit_iterations (nP nE : nat) : list (nat * nat) := list_prod (seq 0 nP) (seq 0 nE).
Definition find_first_hits_in (its : list (nat * nat)) (pips : list (list bool)) := find_hits_in its pips (fun _ j => Ok j).
Definition find_first_hits (pips : list (list bool)) := find_first_hits_in (hit_iterations (length pips) (ncols pips)) pips.
Definition find_first_hits_knn_in (its : list (nat * nat)) (pips : list (list bool)) (neighbours : list (list nat)) :=
  find_hits_in its pips (get2 neighbours).

(** ** Locating points *)

Section Locate.
  (** [query]: see above; [sched n m]: the order in which the iterations of the search for hits are executed;
      [g]: the natural coordinates (glob_to_nat_tet or glob_to_nat_tri); [nn], [nd]: number of nodes of the
      simplices and of dimensions *)
  Context (query : list (list R) -> list R -> nat -> option R -> list nat).
  Context (sched : nat -> nat -> list (nat * nat)).
  Context (g : list R -> list (list R) -> res (list R)) (nn nd : nat).

  (** the neighbours: cell.py 1013-1016, 1080-1083, utils/locate.py 38-40 (utils/utils.py cell_centers_bulk, 361-377);
      an array with one index per position (one simplex, or [k = 1]) is refused by the compiled functions *)
  Definition neighbours_of (ecs : list (list (list R))) (x : list (list R)) (k : nat) : res (list (list nat)) :=
    do centers <- mapM vmean ecs;
    match k_nearest_neighbours query false centers x (Nat.min k (length centers)) None with
    | Inds1 _ => Err TypeError
    | Inds2 i => Ok i
    end.
  Definition neighbours_if (lazy : bool) (ecs : list (list (list R))) (x : list (list R)) (k : nat) : res (option (list (list nat))) :=
    if lazy then do nb <- neighbours_of ecs x k; Ok (Some nb) else Ok None.
  (** natural coordinates for all the simplices, or for the neighbours: cell.py 1017-1024 *)
  Definition nat_coordinates (x : list (list R)) (ecs : list (list (list R))) (nbrs : option (list (list nat))) : res (list (list (list R))) :=
    match nbrs with
    | None => mapM (fun p => mapM (fun ec => g p ec) ecs) x
    | Some nb => nat_bulk_knn g x ecs nb
    end.
  (** utils/cells/utils.py _ntet_to_loc_bulk_, 80-96, and _ntri_to_loc_bulk_, 99-115 *)
  Definition simplex_to_loc (lcoords : list (list R)) (nats : list (list (list R))) (smap : list (list nat))
      (cell_indices points_to_neighbours : list nat) : res (list (list R)) :=
    mapM (fun i =>
      do r <- get points_to_neighbours i; do n <- get2 nats i r;
      do c <- get cell_indices i; do sub <- get smap c;
      foldM (fun acc j => do node <- get sub j; do lc <- get lcoords node; do w <- get n j; vadd acc (vscale w lc))
        (seq 0 nn) (repeat 0 nd)) (seq 0 (length points_to_neighbours)).
  (** cell.py PolyCell3d.locate, 1006-1045; utils/locate.py locate_tri_2d, 33-68: [ecs] are the positions of the
      nodes of the simplices, [smap] the simplices of a cell, [tiles] the number of repetitions of the numbers of
      the simplices of a cell.  ([np.squeeze] makes a number of an array with one entry; [np.where] takes it back.) *)
  Definition locate_simplices (lcoords : list (list R)) (smap : list (list nat)) (tiles : nat) (ecs : list (list (list R)))
      (lazy : bool) (k : nat) (tol : R) (x : list (list R)) : res (list nat * list nat * list (list R)) :=
    do nbrs <- neighbours_if lazy ecs x k;
    do nats <- nat_coordinates x ecs nbrs;
    let pips := pip_of_nat tol nats in
    let i_source := filter (fun i => existsb (fun b => b) (nth i pips [])) (seq 0 (length pips)) in
    do pips_source <- take pips i_source;
    let its := sched (length pips_source) (ncols pips_source) in
    do hits <- match nbrs with
               | None => find_first_hits_in its pips_source
               | Some nb => do nb_source <- take nb i_source; find_first_hits_knn_in its pips_source nb_source
               end;
    do i_target <- take (map (fun i => Nat.div i (length smap)) (seq 0 (length ecs))) (fst hits);
    do cell_indices <- take (concat (repeat (seq 0 (length smap)) tiles)) (fst hits);
    do nat_source <- take nats i_source;
    do locations <- simplex_to_loc lcoords nat_source smap cell_indices (snd hits);
    Ok (i_source, i_target, locations).
  (** cell.py PolyCell3d.pip, 1075-1087; PolyCell2d.pip, 860-865 (not lazy) *)
  Definition pip_simplices (ecs : list (list (list R))) (lazy : bool) (k : nat) (tol : R) (x : list (list R)) : res (list bool) :=
    do nbrs <- neighbours_if lazy ecs x k;
    do nats <- nat_coordinates x ecs nbrs;
    Ok (map (existsb (fun b => b)) (pip_of_nat tol nats)).
End Locate.

(** cell.py PolyCell3d.locate, 970-1045, and pip, 1047-1087 *)
Definition locate query sched (lcoords : list (list R)) (tetmap : res (list (list nat))) (coords : list (list R)) (topo : list (list nat))
    (lazy : bool) (k : nat) (tol : R) (x : list (list R)) : res (list nat * list nat * list (list R)) :=
  do tetmap <- tetmap;
  do tets <- to_tetrahedra tetmap topo;
  do ecs <- cells_coords coords tets;
  locate_simplices query sched glob_to_nat_tet 4 3 lcoords tetmap (length topo) ecs lazy k tol x.
Definition pip_3d query (tetmap : res (list (list nat))) (coords : list (list R)) (topo : list (list nat))
    (lazy : bool) (k : nat) (tol : R) (x : list (list R)) : res (list bool) :=
  do tetmap <- tetmap;
  do tets <- to_tetrahedra tetmap topo;
  do ecs <- cells_coords coords tets;
  pip_simplices query glob_to_nat_tet ecs lazy k tol x.
(** utils/locate.py locate_tri_2d, 19-70, without [trimap] (floating point positions) *)
Definition locate_tri_2d query sched (coords : list (list R)) (triangles : list (list nat)) (lazy : bool) (k : nat) (tol : R) (x : list (list R))
    : res (list nat * list nat * list (list R)) :=
  do ecs <- cells_coords coords triangles;
  locate_simplices query sched (glob_to_nat_tri Floating) 3 2 lcoords_tri trimap_T3 (length triangles) ecs lazy k tol x.
(** cell.py PolyCell2d.pip, 845-865 (floating point positions) *)
Definition pip_2d (trimap : list (list nat)) (coords : list (list R)) (topo : list (list nat)) (tol : R) (x : list (list R)) : res (list bool) :=
  do triangles <- transform_topology_ 0%nat topo trimap;
  do ecs <- cells_coords coords triangles;
  do pips <- pip_tri_bulk Floating x ecs tol;
  Ok (map (existsb (fun b => b)) pips).
