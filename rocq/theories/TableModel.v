(** * Model of the tables of the cell classes, of the export to VTK and of the points of a triangulation

    The edge and face tables of [utils/topodata.py] are in TrModel, the tetrahedra of [polyhedron.py] in LocModel. *)
From Coq Require Import Reals.
From Verif Require Export TrModel CellsModel LocModel.
Local Open Scope R_scope.

(** ** Triangles of plane cells (polygon.py) *)

(** polygon.py Triangle.to_triangles, 31-32 *)
Definition to_triangles_T3 (topo : list (list nat)) : res (list (list nat)) := Ok topo.
(** polygon.py QuadraticTriangle.to_triangles, 69-70 *)
Definition to_triangles_T6 (topo : list (list nat)) : res (list (list nat)) :=
  do r <- T6_to_T3 (C := unit) O true tt topo DNone PNone; Ok (fst (snd r)).
(** polygon.py QuadraticTriangle.trimap, 62-67 *)
Definition trimap_T6 (subdivide : bool) : list (list nat) :=
  if subdivide then [[0;3;5];[3;1;4];[5;4;2];[5;3;4]]%nat else [[0;1;2]]%nat.
(** polygon.py Quadrilateral.to_triangles, 96-97 *)
Definition to_triangles_Q4 (topo : list (list nat)) : res (list (list nat)) :=
  do r <- Q4_to_T3 (C := unit) O tt topo DNone PNone; Ok (fst (snd r)).
(** polygon.py BiQuadraticQuadrilateral.to_triangles, 123-124 *)
Definition to_triangles_Q9 (topo : list (list nat)) : res (list (list nat)) :=
  do q <- Q9_to_Q4 (C := unit) O tt topo DNone PNone;
  do r <- Q4_to_T3 (C := unit) O tt (fst (snd q)) DNone PNone; Ok (fst (snd r)).

(** ** Reversed cells (cell.py) *)

(** cell.py PolyCell.flip, 280-286: [np.flip(topo, axis=1)] *)
Definition flip (topo : list (list nat)) : list (list nat) := map (@rev nat) topo.

(** ** The triangulation object of a triangle mesh (trimesh.py) *)

(** trimesh.py to_triobj, 187-191: the points and the triangles given to [triangulate], which only wraps them
    (triang.py 161-166).  The object itself is not modelled. *)
Definition path_triobj : list (list nat) := [[0;5;4];[5;1;3];[3;2;4];[5;3;4]]%nat.
Definition to_triobj (coords : list (list R)) (topo : list (list nat)) : res (list (list R) * list (list nat)) :=
  if Nat.eqb (ncols topo) 6 then
    do r <- T6_to_T3 O true coords topo DNone (PArr path_triobj); Ok (fst r, fst (snd r))
  else Ok (coords, topo).

(** ** Export to VTK (vtkutils.py) *)

(** vtkutils.py mesh_to_vtkdata, 22-24: every row preceded by the number of columns, one after the other *)
Definition topo_vtk (topo : list (list nat)) : list nat := concat (map (fun row => ncols topo :: row) topo).
(** the attribute vtkCellType: line.py 16; polygon.py 21, 57, 89, 104; polyhedron.py 22, 41, 56, 71, 79, 94 *)
Inductive cell_class := CL2 | CT3 | CT6 | CQ4 | CQ9 | CTET4 | CTET10 | CH8 | CH27 | CW6 | CW18.
Definition vtkCellType (c : cell_class) : nat :=
  match c with
  | CL2 => 3 | CT3 => 5 | CT6 => 22 | CQ4 => 9 | CQ9 => 28 | CTET4 => 10 | CTET10 => 24 | CH8 => 12 | CH27 => 29
  | CW6 => 13 | CW18 => 32
  end%nat.
(** the local coordinates of the nodes, from the lcoords methods in CellsModel *)
Definition lcoords_of (c : cell_class) : list (list R) :=
  match c with
  | CL2 => lcoords_L2 | CT3 => lcoords_T3 | CT6 => lcoords_T6 | CQ4 => lcoords_Q4 | CQ9 => lcoords_Q9
  | CTET4 => lcoords_TET4 | CTET10 => lcoords_TET10 | CH8 => lcoords_H8 | CH27 => lcoords_H27
  | CW6 => lcoords_W6 | CW18 => lcoords_W18
  end.

(** ** Points of a rectangular domain (triang.py) *)

(** [np.linspace(a, b, num=n)] *)
Definition linspace (a b : R) (n : nat) : list R :=
  match n with
  | O => []
  | S O => [a]
  | _ => map (fun i => a + INR i * ((b - a) / INR (n - 1))) (seq 0 n)
  end.
(** the argument shape: absent, a tuple or an int *)
Inductive shape_arg := NoShape | Shape2 (nx ny : nat) | ShapeInt (n : nat).
(** triang.py triangulate, 104-139, with points = None, triobj = None and random = False; size and origo are tuples
    ([z], line 134, is not used).  With an int as shape the size is replaced (129) and [shape[0]] fails (131). *)
Definition rectangle_points (size : option (R * R)) (shape : shape_arg) (origo : option (list R)) : res (list (list R)) :=
  match size with
  | None => Err AssertionError
  | Some (lx, ly) =>
      let origo := match origo with
                   | None => [0; 0; 0]
                   | Some o => if Nat.eqb (length o) 2 then o ++ [0] else o
                   end in
      match shape with
      | ShapeInt _ => Err TypeError
      | _ =>
          let '(nx, ny) := match shape with Shape2 nx ny => (nx, ny) | _ => (1, 1)%nat end in
          do o0 <- get origo 0;
          let x := linspace (- o0) (lx - o0) nx in
          do o1 <- get origo 1;
          let y := linspace (- o1) (ly - o1) ny in
          do _ <- get origo 2;
          Ok (flat_map (fun yj => map (fun xi => [xi; yj; 0]) x) y)
      end
  end.
