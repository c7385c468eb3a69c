(** * Model of areas of quadrilaterals (src/polymesh/utils/cells/q4.py 19-24), names and numbers of cell types
    (src/polymesh/vtkcelltypes.py) and meshes of triangles as cells (src/polymesh/polygon.py 35-44, 74-82)

    Definitions only. *)
From Coq Require Import Reals String List.
From Verif Require Import TrModel.
From Verif Require Export TriModel TableModel TriangModel.
Import ListNotations.
Local Open Scope R_scope.

(** ** Areas *)

(** q4.py area_Q4_bulk, 19-24; cells with less than four nodes are an error (compiled code need not notice it; no theorem is about them) *)
Definition area_Q4_bulk (ecoords : list (list (list R))) : res (list R) :=
  do a <- area_tri_bulk (map (firstn 3) ecoords);
  do second <- mapM (fun ec => mapM (get ec) [0; 2; 3]%nat) ecoords;
  do b <- area_tri_bulk second;
  map2 Rplus a b.

(** ** Names and numbers of cell types *)

(** vtkcelltypes.py vtkCellTypes, 8-87: the members *)
Definition vtk_cell_types : list (string * nat) :=
  [("VTK_LINE", 3); ("VTK_TRIANGLE", 5); ("VTK_QUAD", 9); ("VTK_TETRA", 10); ("VTK_HEXAHEDRON", 12); ("VTK_WEDGE", 13);
   ("VTK_QUADRATIC_TRIANGLE", 22); ("VTK_QUADRATIC_TETRA", 24); ("VTK_BIQUADRATIC_QUAD", 28); ("VTK_TRIQUADRATIC_HEXAHEDRON", 29);
   ("VTK_BIQUADRATIC_QUADRATIC_WEDGE", 32)]%string%nat.
(** the argument of celltype: an int, a string or something else, such as a number of numpy *)
Inductive type_id := IdInt (n : nat) | IdStr (s : string) | IdOther.
(** celltype_by_name, 99-100: KeyError; celltype_by_value, 103-104: ValueError *)
Definition celltype_by_name (s : string) : res (string * nat) :=
  match find (fun m => String.eqb (fst m) s) vtk_cell_types with Some m => Ok m | None => Err KeyError end.
Definition celltype_by_value (n : nat) : res (string * nat) :=
  match find (fun m => Nat.eqb (snd m) n) vtk_cell_types with Some m => Ok m | None => Err ValueError end.
(** vtkCellTypes.celltype, 90-96; without a branch the local variable is unbound, a NameError *)
Definition celltype (i : type_id) : res (string * nat) :=
  match i with IdInt n => celltype_by_value n | IdStr s => celltype_by_name s | IdOther => Err NameError end.
(** meshio_to_vtk, 107-111 *)
Definition meshio_to_vtk (category : string) (default : option string) : option string :=
  if String.eqb category "triangle" then Some "VTK_TRIANGLE"%string else default.
(** CellTypeId, 114-118; looking up anything but a name fails *)
Definition CellTypeId (i : type_id) : option nat :=
  match i with
  | IdStr s => match celltype_by_name s with Ok m => Some (snd m) | Err _ => None end
  | _ => None
  end.

(** ** Meshes of triangles as cells *)

(** the arguments of from_TriMesh: a TriMesh with its points and cells, or coords and topo *)
Inductive mesh_arg := AMesh (coords : list (list R)) (topo : list (list nat)) | AArrays (coords : option (list (list R))) (topo : option (list (list nat))).
(** polygon.py Triangle.from_TriMesh, 35-44 *)
Definition T3_from_TriMesh (a : mesh_arg) : res (list (list R) * list (list nat)) :=
  match a with
  | AMesh c t => Ok (c, t)
  | AArrays (Some c) (Some t) => Ok (c, t)
  | AArrays _ _ => Err NotImplementedError
  end.
(** polygon.py QuadraticTriangle.from_TriMesh, 74-82; [TriMesh.coords()] is called on the class, without an object *)
Definition T6_from_TriMesh (a : mesh_arg) : res (list (list R) * list (list nat)) :=
  match a with
  | AMesh _ _ => Err TypeError
  | AArrays (Some c) (Some t) => T3_to_T6 c t
  | AArrays _ _ => Err NotImplementedError
  end.
