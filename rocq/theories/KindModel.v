(** * Model of the classes given to the cells of new meshes, of grids as meshes and of line meshes
    (src/polymesh/polydata.py 158-168, 253-288, linedata.py 20-36, trimesh.py 62-65, grid.py 606-631)

    Definitions only.  The dictionaries are those of [FieldModel.v], the grids those of [GridModel.v] over the reals, the classes those of
    [ClassModel.v]. *)
From Coq Require Import Reals String List.
From Verif Require Import TrModel.
From Verif Require ClassModel GridModel.
From Verif Require Export FieldModel.
Import ListNotations.
Local Open Scope R_scope.
Local Open Scope string_scope.

(** the classes of meshes that name classes of cells: PolyData, LineData, TriMesh *)
Inductive mesh_class := MPoly | MLine | MTri.
(** [_cell_classes_]: polydata.py 158-168 with the imports 32-42, linedata.py 20-23, trimesh.py 62-65 *)
Definition cell_classes (m : mesh_class) (width : nat) : option ClassModel.kind :=
  match m, width with
  | MPoly, 2 => Some ClassModel.KL2 | MPoly, 3 => Some ClassModel.KT3 | MPoly, 4 => Some ClassModel.KQ4 | MPoly, 6 => Some ClassModel.KW6
  | MPoly, 8 => Some ClassModel.KH8 | MPoly, 9 => Some ClassModel.KQ9 | MPoly, 10 => Some ClassModel.KTET10
  | MPoly, 18 => Some ClassModel.KW18 | MPoly, 27 => Some ClassModel.KH27
  | MLine, 2 => Some ClassModel.KL2 | MLine, 3 => Some ClassModel.KL3
  | MTri, 3 => Some ClassModel.KT3 | MTri, 6 => Some ClassModel.KT6
  | _, _ => None
  end%nat.
(** 256-261: the class that is given, otherwise that of the dictionary; [issubclass(None, CellData)] is a TypeError *)
Definition pick_class (m : mesh_class) (celltype : option ClassModel.kind) (topo : list (list nat)) : res ClassModel.kind :=
  match celltype with
  | Some k => Ok k
  | None => match cell_classes m (ncols topo) with Some k => Ok k | None => Err TypeError end
  end.
(** PolyData.__init__ of a class of meshes, 241-292: the tables of points and cells and the class of the cells.  Positions come first; with a
    class that is found the rest is [PolyData_init] with a class given. *)
Definition mesh_init (m : mesh_class) (x : column) (topo : list (list nat)) (celltype : option ClassModel.kind) (f : option frame) (newaxis : nat)
    (frames : option frames_arg) (pf cf : option table) : res (option table * option table * ClassModel.kind) :=
  match pick_class m celltype topo with
  | Ok k => do t <- fst (PolyData_init x topo true f newaxis frames pf cf); Ok (t, k)
  | Err e =>
      do _ <- fst (PointData_init x true f newaxis None (Some (store (match pf with Some d => d | None => [] end) "_id" (Ids (seq 0 (clen x)))))
                     [("stateful", Other)]);
      Err e
  end.

(** ** Line meshes *)

(** the argument areas: an array with one axis, an array with more of them, something without a shape *)
Inductive areas_arg := Areas1 (l : list R) | AreasN | AreasOther.
(** LineData.__init__, linedata.py 25-36 *)
Definition LineData_init (x : column) (topo : list (list nat)) (celltype : option ClassModel.kind) (f : option frame) (newaxis : nat)
    (frames : option frames_arg) (pf cf : option table) (areas : option areas_arg) : res (option table * option table * ClassModel.kind) :=
  do r <- mesh_init MLine x topo celltype f newaxis frames pf cf;
  let '(tp, tc, k) := r in
  match tc with
  | None => Ok r
  | Some t =>
      do l <- match areas with
              | None => Ok (repeat 1 (table_rows t))
              | Some (Areas1 l) => Ok l
              | Some AreasN => Err AssertionError
              | Some AreasOther => Err AttributeError
              end;
      do t <- set_column t "_areas" (Numbers l);
      Ok (tp, Some t, k)
  end.

(** ** Grids *)

(** an array of positions with two or three columns; for other numbers of columns the model stops *)
Definition as_column (rows : list (list R)) : res column :=
  match ncols rows with
  | 2%nat => Ok (Plane (map (fun r => (nth 0 r 0, nth 1 r 0)) rows))
  | 3%nat => Ok (Space (map (fun r => (nth 0 r 0, nth 1 r 0, nth 2 r 0)) rows))
  | _ => Err NotImplementedError
  end.
(** Grid.__init__, grid.py 625-631: all arguments go to grid and, with its results, to PolyData.__init__, which leaves those of grid to the
    dictionary of blocks (not modelled) *)
Definition Grid_init (a : GridModel.grid_args (K := R)) (eshape : GridModel.eshape_arg) (celltype : option ClassModel.kind) (f : option frame)
    (newaxis : nat) (frames : option frames_arg) (pf cf : option table) : res (option table * option table * ClassModel.kind) :=
  do ct <- GridModel.grid a eshape;
  do x <- as_column (fst ct);
  mesh_init MPoly x (snd ct) celltype f newaxis frames pf cf.
