(** * Model of exports as awkward arrays, of meshes from several inputs and of small functions of triangles and cells
    (src/polymesh/akwrap.py 97-150, polydata.py 611-707, io/io.py 19-72, vtkutils.py 51-63, utils/tri.py, utils/utils.py)

    Definitions only.  Tables and records are those of [ExchangeModel.v]. *)
From Coq Require Import Reals List.
From Verif Require Export NodalModel TriModel.
From Verif Require Export ExchangeModel.
Import ListNotations.

(** ** Exports *)
Section Exports.
Context {V : Type}.
(** what [ak.from_iter] of the package awkward makes of records: a column for every name, in the order of their first appearance; a record
    without the name has [None] *)
Definition from_iter (rs : list (@record V)) : list (nat * list (option V)) :=
  let names := fold_left (fun acc r => fold_left (fun acc kv => if existsb (Nat.eqb (fst kv)) acc then acc else acc ++ [fst kv]) r acc) rs [] in
  map (fun k => (k, map (fun r => match dget r k with Ok v => Some v | Err _ => None end) rs)) names.
(** [ak.zip(d, depth_limit=1)] of columns: without columns, or of different lengths, a ValueError.  (Columns of length one may be repeated; no
    theorem is about it.) *)
Definition zip_table (d : @table V) : res (@table V) :=
  match d with
  | [] => Err ValueError
  | (_, c) :: d' => do _ <- guard (forallb (fun kc => Nat.eqb (length (snd kc)) (length c)) d') ValueError; Ok d
  end.
(** to_akarray, akwrap.py 123-137; to_akrecord, 139-151 *)
Definition to_akarray (d : @table V) (args : list nat) (fields : given) : res (list (nat * list (option V))) :=
  do l <- fst (to_list d args fields); Ok (from_iter l).
Definition to_akrecord (d : @table V) (args : list nat) (fields : given) : res (@table V) :=
  do t <- fst (to_dict d args fields); zip_table t.
(** PolyData.to_ak, polydata.py 678-707; [nargs]: the number of positional arguments, which go on to to_lists, a function without any (TypeError);
    to_dataframe, 611-639, and to_parquet, 641-676, start with the same call *)
Definition to_ak (pts cls : list (@table V)) (nargs : nat) (point_fields cell_fields : option (list nat))
    : res (list (nat * list (option V)) * list (nat * list (option V))) :=
  do _ <- guard (Nat.eqb nargs 0) TypeError;
  do l <- to_lists pts cls point_fields cell_fields;
  Ok (from_iter (fst l), from_iter (snd l)).
End Exports.

(** ** Inputs *)
Section Inputs.
(** meshes: coordinates with cells *)
Context {M : Type}.
(** an argument: None; a path, with the mesh the package meshio reads from the file if it exists; a PolyData or an UnstructuredGrid of pyvista
    with its mesh; anything else *)
Inductive input := INone | IPath (file : option M) | IPolyData (m : M) | IGrid (m : M) | IOther.
(** the result of a call: a mesh for a candidate, otherwise a list of results *)
Inductive output := OMesh (m : M) | OList (l : list output).
(** PolyData_to_mesh, vtkutils.py 51-63, with the default [v = 0] gives the mesh.  input_to_mesh with [__candidate], io/io.py 41-72, without
    further arguments; [haspyvista]: the package can be imported *)
Definition read_candidate (haspyvista : bool) (c : input) : res output :=
  match c with
  | INone => Ok (OList [])
  | IPath (Some m) => Ok (OMesh m)
  | IPath None => Err AssertionError
  | IPolyData m | IGrid m => if haspyvista then Ok (OMesh m) else Err AssertionError
  | IOther => Err AssertionError
  end.
(** input_to_mesh of positional arguments, 41-46 *)
Definition input_to_mesh (haspyvista : bool) (args : list input) : res output :=
  do l <- mapM (read_candidate haspyvista) args; Ok (OList l).
End Inputs.

(** ** Triangles and cells *)
Local Open Scope R_scope.

(** monoms_tri_loc, utils/tri.py 28-30, and monoms_tri_loc_bulk, 33-38 *)
Definition monoms_tri_loc (lcoord : list R) : res (list R) := do r <- get lcoord 0; do s <- get lcoord 1; Ok [1; r; s].
Definition monoms_tri_loc_bulk (lcoord : list (list R)) : res (list (list R)) := mapM monoms_tri_loc lcoord.
(** lcenter_tri, 46-48 *)
Definition lcenter_tri : list R := [1 / 3; 1 / 3].
(** center_tri_2d, 71-75, center_tri_3d, 78-83: the result has the element type [dt] of the coordinates *)
Definition center_tri_2d (dt : EvalModel.dtype) (ecoords : list (list R)) : res (list R) :=
  do x <- column_mean ecoords 0; do y <- column_mean ecoords 1; Ok [EvalModel.store dt x; EvalModel.store dt y].
Definition center_tri_3d (dt : EvalModel.dtype) (ecoords : list (list R)) : res (list R) :=
  do x <- column_mean ecoords 0; do y <- column_mean ecoords 1; do z <- column_mean ecoords 2; Ok [EvalModel.store dt x; EvalModel.store dt y; EvalModel.store dt z].
(** cell_coords, utils/utils.py 290-321 *)
Definition cell_coords (coords : list (list R)) (topo : list nat) : res (list (list R)) := mapM (get coords) topo.
