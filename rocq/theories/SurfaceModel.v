(** * Model of surfaces: src/polymesh/cell.py, 935-955, and src/polymesh/polydata.py, 1210-1229

    Definitions only.  The surface of a block is extracted and cut into triangles by the packages [vtk] and [pyvista], which are not part of
    the repository: a parameter ([tool]) that gives the points and the triangles of the surface of cells with the given coordinates. *)
From Coq Require Import Reals ZArith.
From Verif Require SpaceModel.
From Verif Require Export QueryModel.

(** what [extract_surface().triangulate()] of the package [pyvista] returns for coordinates and cells: [s.points] and [s.cells_dict[5]] *)
Definition surface_tool : Type := list vec -> list (list nat) -> list vec * list (list nat).
(** PolyCell.source_coords, cell.py 371-379: the coordinates stored in the points that are attached to the cells ([own]), else those of
    the source of the block *)
Definition source_coords (own : option (list vec)) (coords : list vec) : list vec := match own with Some x => x | None => coords end.
(** PolyCell.extract_surface, cell.py 935-949, and boundary, 951-955.  The tool gets the coordinates of the source, 916 and 922. *)
Definition extract_surface (query : tree_query) (tool : surface_tool) (own : option (list vec)) (coords : list vec) (topo : list (list nat)) (detach : bool)
  : res (list vec * list (list nat)) :=
  let s := tool coords topo in
  if detach then Ok s
  else
    let x := source_coords own coords in
    do r <- SpaceModel.index_of_closest_point query (map row x) (SpaceModel.Targets (map row (fst s)));
    match r with
    | SpaceModel.Indices imap => do t <- remap_topo (snd s) (MArr imap); Ok (x, t)
    | SpaceModel.Index1 _ => Err TypeError
    end.

(** the paths of the blocks below a block and of itself, in the order of [walk] *)
Fixpoint paths_in (b : block) : list (list nat) :=
  [] :: (fix below (i : nat) (l : list block) : list (list nat) :=
           match l with [] => [] | s :: t => map (cons i) (paths_in s) ++ below (S i) t end) 0 (bsub b).
(** the cells of the block [path], if it has some *)
Definition cells_of (m : block) (path : list nat) : option cells := match block_at top m path with Ok cb => bcd (snd cb) | Err _ => None end.
(** PolyData.surface, 1216-1219, for one block: [block.cd.extract_surface(detach=False)[-1]].  [attached]: the cells refer to the points of their
    source (polydata.py 233-236; to_standard_form removes this reference, 1124).  All cells are solid (1218). *)
Definition block_surface (query : tree_query) (tool : surface_tool) (attached : bool) (m : block) (path : list nat) (k : cells) : res (list (list nat)) :=
  do sp <- the_source m path; do sb <- block_at top m sp;
  do coords <- coords_of (fst sb) (snd sb) None;
  let own := if attached then option_map px (bpd (snd sb)) else None in
  do r <- extract_surface query tool own coords (nodes k) false;
  Ok (snd r).
(** the blocks of a mesh with cells *)
Definition cell_paths (m : block) : list (list nat * cells) := flat_map (fun p => match cells_of m p with Some k => [(p, k)] | None => [] end) (paths_in m).
(** PolyData.surface, 1210-1229, of a root; [np.vstack] of no arrays: ValueError *)
Definition mesh_surface (query : tree_query) (tool : surface_tool) (attached : bool) (m : block) : res block :=
  let blocks := cell_paths m in
  do sp <- the_source m []; do sb <- block_at top m sp;
  do coords <- coords_of (fst sb) (snd sb) None;
  do frame <- the_frame (enter (fst sb) (snd sb));
  do ts <- mapM (fun pk => block_surface query tool attached m (fst pk) (snd pk)) blocks;
  do _ <- guard (match ts with [] => false | _ => true end) ValueError;
  let triangles := concat ts in
  let triangles := if Nat.ltb 1 (length blocks) then unique lex_cmp triangles else triangles in
  let pd := new_points coords (Some frame) (seq 0 (length coords)) None [] in
  Ok (Block (Some frame) (Some pd) (Some (Cells triangles (seq 0 (length triangles)) [])) []).
