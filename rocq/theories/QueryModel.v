(** * Model of queries: src/polymesh/space/pointcloud.py, 211-350, and src/polymesh/polydata.py

    Definitions only.  Point clouds, frames and meshes are those of FrameModel and MeshModel; the search for the closest and the furthest
    points of space.py is that of SpaceModel. *)
From Coq Require Import Reals ZArith.
From Verif Require EvalModel SpaceModel.
From Verif Require Export MeshModel.
Local Open Scope R_scope.

(** ** Bounds *)

(** [minmax] of the package [neumann]: the least and the greatest entry of an array; ValueError if there is none *)
Definition minmax (l : list R) : res (R * R) :=
  match l with [] => Err ValueError | a :: t => Ok (fold_left Rmin t a, fold_left Rmax t a) end.
Definition bounds_rows (x : list vec) : res (list (R * R)) :=
  do a <- minmax (map (fun p => fst (fst p)) x); do b <- minmax (map (fun p => snd (fst p)) x); do c <- minmax (map snd x); Ok [a; b; c].
(** PointCloud.bounds, pointcloud.py 211-224, of points in space *)
Definition cloud_bounds (c : cloud) (target : option frame) : res (list (R * R)) := bounds_rows (show c target).
(** PolyData.bounds, polydata.py 1197-1208, of the block [path] *)
Definition mesh_bounds (m : block) (path : list nat) (target : option frame) : res (list (R * R)) :=
  do cb <- block_at top m path; do x <- coords_of (fst cb) (snd cb) target; bounds_rows x.

(** ** The closest and the furthest points *)

(** a row of an array of coordinates *)
Definition row (v : vec) : list R := let '(x, y, z) := v in [x; y; z].
(** the function of scipy that is asked for several positions, see SpaceModel *)
Definition tree_query : Type := list (list R) -> list R -> nat -> option R -> list nat.
(** the argument [p] of the functions below: an array or a vector with one position, an array or a vector ([own]: its frame) with several
    positions, another point cloud *)
Inductive positions := One (p : vectorlike) | Several (ps : list vec) (own : option (option frame)) | OfCloud (c : cloud).
(** 265-271 and 290-293: [p.show()], where [p] is made a vector of the given frame if it is an array ([own] is [None]) *)
Definition at_ambient (p : positions) (f : option frame) : SpaceModel.target :=
  match p with
  | One (Array v) => SpaceModel.Target1 (row (vshow f v None))
  | One (Vect v g) => SpaceModel.Target1 (row (vshow g v None))
  | Several vs None => SpaceModel.Targets (map (fun v => row (vshow f v None)) vs)
  | Several vs (Some g) => SpaceModel.Targets (map (fun v => row (vshow g v None)) vs)
  | OfCloud c => SpaceModel.Targets (map row (show c None))
  end.
(** PointCloud.index_of_closest, 248-271 *)
Definition index_of_closest (query : tree_query) (c : cloud) (p : positions) (f : option frame) : res SpaceModel.index_result :=
  SpaceModel.index_of_closest_point query (map row (show c None)) (at_ambient p f).
(** PointCloud.index_of_furthest, 273-293; floating point coordinates *)
Definition index_of_furthest (c : cloud) (p : positions) (f : option frame) : res SpaceModel.index_result :=
  SpaceModel.index_of_furthest_point EvalModel.Floating (map row (show c None)) (at_ambient p f).
(** class Point, point.py: a vector with two numbers *)
Record point := Point { pos : vec; point_frame : frame; point_id : nat; gid : Z }.
Inductive found := Found1 (p : point) | FoundMany (c : cloud).
(** the second part of PointCloud.closest, 313-322, and of furthest, 341-350 *)
Definition found_at (c : cloud) (r : SpaceModel.index_result) : res found :=
  match r with
  | SpaceModel.Index1 i =>
      do a <- get (array c) i;
      do g <- match inds c with Some l => get l i | None => Ok (Z.of_nat i) end;
      Ok (Found1 (Point a (cframe c) i g))
  | SpaceModel.Indices l =>
      do a <- mapM (get (array c)) l;
      do _ <- match inds c with Some k => do _ <- mapM (get k) l; Ok tt | None => Ok tt end;
      Ok (FoundMany (new_cloud a (Some (cframe c)) (Some (map Z.of_nat l))))
  end.
(** PointCloud.closest, 295-322 *)
Definition closest_points (query : tree_query) (c : cloud) (p : positions) (f : option frame) : res found :=
  do r <- index_of_closest query c p f; found_at c r.
(** PointCloud.furthest, 324-350 *)
Definition furthest_points (c : cloud) (p : positions) (f : option frame) : res found :=
  do r <- index_of_furthest c p f; found_at c r.

(** PolyData.index_of_closest_point, 1660-1662, of the block [path]; the target is an array.  (Other sequences have no attribute [shape].) *)
Definition mesh_closest_point (query : tree_query) (m : block) (path : list nat) (t : SpaceModel.target) : res SpaceModel.index_result :=
  do cb <- block_at top m path; do x <- coords_of (fst cb) (snd cb) None; SpaceModel.index_of_closest_point query (map row x) t.
(** PolyData.index_of_furthest_point, 1664-1668 *)
Definition mesh_furthest_point (m : block) (path : list nat) (t : SpaceModel.target) : res SpaceModel.index_result :=
  do cb <- block_at top m path; do x <- coords_of (fst cb) (snd cb) None; SpaceModel.index_of_furthest_point EvalModel.Floating (map row x) t.
(** PolyData.index_of_closest_cell, 1670-1672 *)
Definition mesh_closest_cell (query : tree_query) (m : block) (path : list nat) (t : SpaceModel.target) : res SpaceModel.index_result :=
  do x <- mesh_centers m path None; SpaceModel.index_of_closest_point query (map row x) t.
(** PolyData.index_of_furthest_cell, 1674-1678 *)
Definition mesh_furthest_cell (m : block) (path : list nat) (t : SpaceModel.target) : res SpaceModel.index_result :=
  do x <- mesh_centers m path None; SpaceModel.index_of_furthest_point EvalModel.Floating (map row x) t.

(** ** The blocks of cells

    Blocks with cells are named by their numbers in the order of [cellblocks]; these are the keys of [bid2b]. *)

(** the builtin [dict] of pairs: a later pair replaces an earlier one with the same key *)
Definition dict_of {A} (l : list (nat * A)) : dict A := fold_left (fun d kv => dset d (fst kv) (snd kv)) l [].
(** PolyData._create_mappers_, 481-499: the number of the block of each cell *)
Definition create_mappers (m : block) : res (dict nat) :=
  let ks := map snd (cellblocks (walk top m)) in
  do _ <- guard (match ks with [] => false | _ => true end) ValueError;
  let cids := concat (map cid ks) in
  let bids := concat (map (fun ik => repeat (fst ik) (length (nodes (snd ik)))) (enum ks)) in
  Ok (dict_of (combine cids bids)).
(** PolyData.lock, 420-444, and unlock, 446-456; [cache]: the attribute [_cid2bid] *)
Definition lock (m : block) (create : bool) (cache : option (dict nat)) : res (option (dict nat)) :=
  match create, cache with
  | true, None => do d <- create_mappers m; Ok (Some d)
  | _, _ => Ok cache
  end.
Definition unlock (cache : option (dict nat)) : option (dict nat) := None.
(** PolyData.blocks_of_cells, 458-479, of a root *)
Definition blocks_of_cells (m : block) (cache : option (dict nat)) (i : option (list nat)) : res (dict nat) :=
  do d <- match cache with Some d => Ok d | None => create_mappers m end;
  match i with
  | None => Ok d
  | Some cids => do bids <- mapM (dget d) cids; Ok (dict_of (combine cids bids))
  end.
(** PolyData.cell_indices, 1270-1276, of the block [path] *)
Definition cell_indices (m : block) (path : list nat) : res (list nat) :=
  do cb <- block_at top m path;
  let ks := map snd (cellblocks (walk (fst cb) (snd cb))) in
  do _ <- guard (match ks with [] => false | _ => true end) ValueError;
  Ok (concat (map cid ks)).
(** PolyData.number_of_cells, 1512-1515 *)
Definition number_of_cells (m : block) (path : list nat) : res nat :=
  do cb <- block_at top m path; Ok (list_sum (map (fun ck => length (nodes (snd ck))) (cellblocks (walk (fst cb) (snd cb))))).
(** PolyData.number_of_points, 1517-1519 *)
Definition number_of_points (m : block) (path : list nat) : res nat :=
  do sp <- the_source m path; do sb <- block_at top m sp;
  match bpd (snd sb) with Some p => Ok (length (px p)) | None => Err AttributeError end.

(** ** The points of cells *)

(** PolyData.topology, 1231-1268: ValueError if there are no cells *)
Definition topology_at (m : block) (path : list nat) : res (list (list nat)) :=
  do cb <- block_at top m path;
  do _ <- guard (match cellblocks (walk (fst cb) (snd cb)) with [] => false | _ => true end) ValueError;
  Ok (topology_of (fst cb) (snd cb)).
(** PolyData.points, 1131-1170, with from_cells=True.  (The new cloud is made of the points [x[inds, :]] of the root and of the frame of the
    block, 1164-1166; the array of these points is taken as it is.) *)
Definition points_from_cells (m : block) (path : list nat) : res cloud :=
  do cb <- block_at top m path;
  do target <- the_frame (enter (fst cb) (snd cb));
  do t <- topology_at m path;
  let used := np_unique (concat t) in
  do x <- points_of top m;
  do ids <- match inds x with Some l => Ok (map Z.to_nat l) | None => Err TypeError end;
  do k <- remap_topo_1d used (MDict (inds_to_invmap_as_dict ids));
  do y <- getitem x (KList (map Z.of_nat k));
  Ok (new_cloud (array y) (Some target) (Some (map Z.of_nat used))).
(** PolyData.cells_coords, 1521-1524 (utils/utils.py cells_coords: the rows of the coordinates) *)
Definition mesh_cells_coords (m : block) (path : list nat) : res (list (list vec)) :=
  do t <- topology_at m path;
  do sp <- the_source m path; do sb <- block_at top m sp;
  do x <- coords_of (fst sb) (snd sb) None;
  mapM (mapM (get x)) t.
