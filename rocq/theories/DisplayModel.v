(** * Model of what is shown of a mesh: polydata.py, 928-956, 1742-1917, 1945-2010 and 2189-2212; vtkutils.py, 15-41

    Definitions only.  The objects of the packages [vtk], [pyvista] and [k3d] are represented by the arrays they are made of.  The names of
    fields are those given by the user: the fields in which coordinates, indices and nodes are stored (such as "_x") are no scalars here. *)
From Coq Require Import Reals String List.
From Verif Require Export IncidenceModel.
From Verif Require NodalModel LocModel.
Local Open Scope nat_scope.

(** ** Blocks and their ancestors *)

(** a block and its ancestors, the block itself first, each with what its parent knows *)
Definition family := list (ctx * block).
(** polydata.py blocks(inclusive=True), 866-890, each with its ancestors; [anc]: the ancestors of [b] *)
Fixpoint families (anc : family) (c : ctx) (b : block) : list family :=
  ((c, b) :: anc) :: concat (map (families ((c, b) :: anc) (enter c b)) (bsub b)).
Definition own_cells (f : family) : option cells := match f with cb :: _ => bcd (snd cb) | [] => None end.
(** polydata.py cellblocks(inclusive=True), 910-925 *)
Definition cell_families (anc : family) (c : ctx) (b : block) : list family :=
  filter (fun f => match own_cells f with Some _ => true | None => false end) (families anc c b).
(** polydata.py is_source, 833-845, of a block; the key is that of the coordinates, or the name of a field *)
Definition is_source (key : option string) (b : block) : bool :=
  match bpd b with
  | None => false
  | Some p => match key with None => true | Some s => has s (map fst (pfields p)) end
  end.
(** polydata.py source, 847-864 *)
Definition source (key : option string) (f : family) : option (ctx * block) := find (fun cb => is_source key (snd cb)) f.

(** ** Detached blocks with their data *)

(** the argument [data] or [scalars]: nothing, the name of a field, an array with one or two axes, another object *)
Inductive scalars := SNone | SName (s : string) | SArray (a : field) | SOther.
(** what is yielded for a block: coordinates, topology and data *)
Record piece := Piece { gcoords : list vec; gtopo : list (list nat); gdata : option field }.
(** utils/utils.py explode_mesh_data_bulk, 631-681: see [NodalModel.explode_data_in]; each entry of the new arrays is written once.  The
    coordinates are floating point numbers (the data is stored with the type of the coordinates). *)
Definition explode (coords : list vec) (topo : list (list nat)) (data : list (list value)) : res (list vec * list (list nat) * list value) :=
  let nNE := TrModel.ncols topo in
  do c <- mapM (fun e => get coords (snd e)) (entries topo);
  do d <- mapM (fun e => get2 data (fst (fst e)) (snd (fst e))) (entries topo);
  Ok (c, map (fun e => seq (e * nNE) nNE) (seq 0 (length topo)), d).
(** polydata.py _detach_block_data_, 1742-1780, for one block.  The functions that detach are compiled: a TopologyArray, which is what
    [topology] returns for rows of different lengths, is rejected by them (TypeError). *)
Definition detach_block (data : scalars) (f : family) : res piece :=
  match f with
  | [] => Err IndexError
  | (c, b) :: _ =>
      do src <- match source None f with Some s => Ok s | None => Err AttributeError end;
      do coords <- coords_of (fst src) (snd src) None;
      do tp <- topology false c b;
      do pd <- match bpd (snd src) with Some p => Ok p | None => Err AttributeError end;
      do point_data <- match data with
                       | SNone => Ok None
                       | SName s => Ok (find_field s (pfields pd))
                       | SArray a => do _ <- guard (Nat.eqb (length (rows a)) (length (px pd))) ValueError; Ok (Some a)
                       | SOther => Err TypeError
                       end;
      do _ <- guard (negb (fst tp)) TypeError;
      match point_data with
      | Some a => do cdt <- detach_mesh_data_bulk coords (snd tp) (rows a);
                  let '(c, d, t) := cdt in Ok (Piece c t (Some (Field (width a) d)))
      | None =>
          do ct <- detach_mesh_bulk coords (snd tp);
          match data, bcd b with
          | SName s, Some k =>
              match find_field s (cfields k) with
              | None => Ok (Piece (fst ct) (snd ct) None)
              | Some a => match width a with
                          | None => Ok (Piece (fst ct) (snd ct) (Some a))
                          | Some _ => do ctd <- explode (fst ct) (snd ct) (rows a);
                                      let '(c, t, d) := ctd in Ok (Piece c t (Some (Field None (map (fun x => [x]) d))))
                          end
              end
          | _, _ => Ok (Piece (fst ct) (snd ct) None)
          end
      end
  end.
(** polydata.py _detach_block_data_, 1742-1780 *)
Definition detach_block_data (data : scalars) (anc : family) (c : ctx) (b : block) : res (list piece) :=
  mapM (detach_block data) (cell_families anc c b).
(** polydata.py _has_plot_scalars_, 1782-1805, for one block *)
Definition has_plot_scalars (data : scalars) (f : family) : res bool :=
  match data with
  | SArray _ => Ok true
  | SName s => match source (Some s) f with
               | Some _ => Ok true
               | None => match own_cells f with Some k => Ok (has s (map fst (cfields k))) | None => Err AttributeError end
               end
  | SNone => Ok false
  | SOther => Err ValueError
  end.

(** ** Objects of other packages *)

(** an unstructured grid: points, the array of all cells (each preceded by its number of nodes), the number of cells, the type of the cells *)
Record grid := Grid { vpoints : list vec; vcells : list nat; vnumber : nat; vtype : nat }.
(** vtkutils.py mesh_to_vtkdata, 15-28, and mesh_to_UnstructuredGrid, 31-38 *)
Definition mesh_to_vtk (coords : list vec) (topo : list (list nat)) (ct : nat) : grid :=
  Grid coords (concat (map (fun r => TrModel.ncols topo :: r) topo)) (length topo) ct.
(** what [to_vtk] returns: a grid, a list, or a data set of several blocks *)
Inductive vtk_out := VGrid (g : grid) | VList (l : list grid) | VMulti (l : list grid).
(** polydata.py to_vtk, 1818-1855; [ct]: the attribute vtkCellType of the class of the cells of a block *)
Definition grids (ct : family -> nat) (fs : list family) (ps : list piece) : list grid :=
  map (fun fp => mesh_to_vtk (gcoords (snd fp)) (gtopo (snd fp)) (ct (fst fp))) (combine fs ps).
Definition to_vtk (ct : family -> nat) (multiblock : bool) (anc : family) (c : ctx) (b : block) : res vtk_out :=
  do ps <- detach_block_data SNone anc c b;
  let ugrids := grids ct (cell_families anc c b) ps in
  if multiblock then Ok (VMulti ugrids)
  else match ugrids with [] => Err IndexError | [g] => Ok (VGrid g) | _ => Ok (VList ugrids) end.
(** the data of a wrapped grid: none, at the points or of the cells.  [pvobj[name] = d] of the package [pyvista]: the array belongs to the
    points if it has as many rows as there are points, else to the cells if it has as many rows as there are cells, else it is rejected. *)
Inductive attached := NoData | OfPoints (name : string) (a : field) | OfCells (name : string) (a : field).
Definition attach (name : string) (a : field) (g : grid) : res attached :=
  if Nat.eqb (length (rows a)) (length (vpoints g)) then Ok (OfPoints name a)
  else if Nat.eqb (length (rows a)) (vnumber g) then Ok (OfCells name a) else Err ValueError.
(** polydata.py to_pv, 1857-1917 *)
Definition to_pv (ct : family -> nat) (multiblock : bool) (data : scalars) (anc : family) (c : ctx) (b : block) : res (list (grid * attached)) :=
  do ps <- detach_block_data data anc c b;
  let ugrids := grids ct (cell_families anc c b) ps in
  if multiblock then Ok (map (fun g => (g, NoData)) ugrids)
  else match data with
       | SNone => Ok (map (fun g => (g, NoData)) ugrids)
       | _ => mapM (fun gp => do a <- match gdata (snd gp) with
                                      | None => Ok NoData
                                      | Some a => attach (match data with SName s => s | _ => "scalars"%string end) a (fst gp)
                                      end;
                              Ok (fst gp, a)) (combine ugrids ps)
       end.
(** polydata.py to_k3d, 1945-2010: the arrays of the objects for the blocks of cells with one or two dimensions.  [ndim]: the attribute NDIM of
    the class of the cells, [tris]: the result of [to_triangles] of the cells of a block.  Not modelled: blocks with cells of three
    dimensions, parameters, and the copies of an object for the back side and for the edges. *)
Definition k3d_block (ndim : cells -> nat) (tris : cells -> res (list (list nat))) (data : option (list value)) (coords : list vec) (k : cells)
    : res (list vec * list (list nat) * option (list value)) :=
  do topo <- match ndim k with 1 => Ok (nodes k) | 2 => tris k | _ => Err NotImplementedError end;
  match data with
  | None => do ct <- detach_mesh_bulk coords topo; Ok (fst ct, snd ct, None)
  | Some d => do cdt <- detach_mesh_data_bulk coords topo d; let '(c, d, t) := cdt in Ok (c, t, Some d)
  end.
Definition to_k3d (ndim : cells -> nat) (tris : cells -> res (list (list nat))) (data : option (list value)) (anc : family) (c : ctx) (b : block)
    : res (list (list vec * list (list nat) * option (list value))) :=
  do src <- match source None ((c, b) :: anc) with Some s => Ok s | None => Err AttributeError end;
  do coords <- coords_of (fst src) (snd src) None;
  mapM (fun ck => k3d_block ndim tris data coords (snd ck)) (cellblocks (walk c b)).

(** ** Parameters of plots *)

(** the parameters of a block under a key of its configuration: names and values *)
Definition params := list (string * nat).
(** the configurations of the blocks of a mesh under one key; a block is given by its number *)
Definition configs := dict params.
(** polydata.py _get_config_, 1807-1814: the number of the block whose configuration is used; [f]: the block and its ancestors *)
Definition config_owner (cs : configs) (f : list nat) : option nat :=
  find (fun i => match dget cs i with Ok _ => true | Err _ => false end) f.
(** [config.pop("color", None)], 2200: the configuration that is stored is changed *)
Definition pop_color (p : params) : params := filter (fun kv => negb (String.eqb (fst kv) "color")) p.
(** polydata.py pvplot, 2195-2207, one block: the configurations afterwards and the parameters taken from them.  Not modelled: the parameters
    given by the other arguments of [pvplot]. *)
Definition plot_block (cs : configs) (f : list nat) (has_data : bool) : configs * params :=
  match config_owner cs f with
  | None => (cs, [])
  | Some i =>
      match dget cs i with
      | Err _ => (cs, [])
      | Ok p => if has_data then (dset cs i (pop_color p), pop_color p) else (cs, p)
      end
  end.
Fixpoint pvplot (cs : configs) (blocks : list (list nat * bool)) : configs * list params :=
  match blocks with
  | [] => (cs, [])
  | (f, d) :: t => let r := plot_block cs f d in let s := pvplot (fst r) t in (fst s, snd r :: snd s)
  end.

(** ** Names of fields *)

(** [np.unique(np.array(names).flatten())]: an array is made of lists of the same length only (ValueError of numpy since version 1.24; before
    that the result has the lists as entries).  The order of the result is not modelled. *)
Definition unique_names (names : list (list string)) : res (list string) :=
  match names with
  | [] => Ok []
  | l :: t => if forallb (fun m => Nat.eqb (length m) (length l)) t then Ok (once (concat names)) else Err ValueError
  end.
(** the fields of a table; [always]: the fields in which coordinates, nodes, indices and activity are stored *)
Definition point_names (always : list string) (p : points) : list string := always ++ map fst (pfields p).
Definition cell_names (always : list string) (k : cells) : list string := always ++ map fst (cfields k).
(** polydata.py point_fields, 928-940, and cell_fields, 942-954: [blocks] is called without [inclusive] (866-890, False by default) *)
Definition below (c : ctx) (b : block) : list (ctx * block) := concat (map (walk (enter c b)) (bsub b)).
Definition point_fields (always : list string) (c : ctx) (b : block) : res (list string) :=
  unique_names (map (fun cp => point_names always (snd cp)) (pointblocks (below c b))).
Definition cell_fields (always : list string) (c : ctx) (b : block) : res (list string) :=
  unique_names (map (fun ck => cell_names always (snd ck)) (cellblocks (below c b))).

(** ** Neighbours of cells *)

Definition row_of (p : vec) : list R := let '(x, y, z) := p in [x; y; z].
(** polydata.py k_nearest_cell_neighbours, 1613-1637, of a part of a mesh; [query]: see [LocModel.k_nearest_neighbours] *)
Definition k_nearest_cell_neighbours (query : list (list R) -> list R -> nat -> option R -> list nat) (m : block) (path : list nat) (k : nat) (max_distance : option R) (target : option frame)
    : res LocModel.inds :=
  do c <- mesh_centers m path target;
  Ok (LocModel.k_nearest_neighbours query false (map row_of c) (map row_of c) k max_distance).
(** polydata.py cells_around_cells, 1459-1476 *)
Definition cells_around_cells (m : block) (path : list nat) (radius : R) (fmt : NodalModel.around_format) : res NodalModel.around :=
  do c <- mesh_centers m path None;
  NodalModel.points_around (map row_of c) radius fmt true 10.
